(** * The info file of a file set: punx/cache_manager.py *)

From Coq Require Import List NArith ZArith Bool String.
From Verif Require Import PyBase Utf8 Json Cache Install.
Import ListNotations.
Open Scope string_scope.
Open Scope list_scope.
Local Open Scope N_scope.

(** ** Dates *)
(** the tuple [ZipInfo.date_time]: year, month, day, hour, minute, second *)
Record stamp := mkStamp { t_year : N; t_month : N; t_day : N; t_hour : N; t_minute : N; t_second : N }.
Definition stamp_list (t : stamp) : list N := [t_year t; t_month t; t_day t; t_hour t; t_minute t; t_second t].
(** [a <= b] on tuples: lexicographic, as for texts *)
Definition stamp_leb (a b : stamp) : bool := str_leb (stamp_list a) (stamp_list b).
(** [max(a, b)]: the first one, unless the second is greater *)
Definition stamp_max (a b : stamp) : stamp := if stamp_leb b a then a else b.

(** Python's [datetime]: the days of a month *)
Definition leap (y : N) : bool := (y mod 4 =? 0) && (negb (y mod 100 =? 0) || (y mod 400 =? 0)).
Definition days_in_month (y m : N) : N :=
  if m =? 2 then (if leap y then 29 else 28)
  else if existsb (N.eqb m) [4; 6; 9; 11] then 30
  else 31.
(** [datetime.datetime(...)] raises ValueError for a date that does not exist *)
Definition real_date (t : stamp) : bool :=
  (1 <=? t_year t) && (t_year t <=? 9999) && (1 <=? t_month t) && (t_month t <=? 12)
  && (1 <=? t_day t) && (t_day t <=? days_in_month (t_year t) (t_month t))
  && (t_hour t <=? 23) && (t_minute t <=? 59) && (t_second t <=? 59).
(** ["%02d" % n] and ["%04d" % n] for numbers that fit *)
Definition two (n : N) : pystr := [48 + n / 10 mod 10; 48 + n mod 10].
Definition four (n : N) : pystr := two (n / 100) ++ two n.
(** [isoformat(sep=" ")] without microseconds: YYYY-MM-DD HH:MM:SS *)
Definition isoformat (t : stamp) : pystr :=
  four (t_year t) ++ [45] ++ two (t_month t) ++ [45] ++ two (t_day t) ++ [32]
  ++ two (t_hour t) ++ [58] ++ two (t_minute t) ++ [58] ++ two (t_second t).

(** ** Writing *)
(** punx/cache_manager.py:83, 93-97 *)
Definition URL_BASE : pystr := py "https://github.com/nexusformat/definitions/archive".
Definition zip_url (name : pystr) : pystr := URL_BASE ++ py "/" ++ name ++ py ".zip".

(** punx/cache_manager.py:203-207: the latest date of the extracted members; [dates]
    is [getinfo(name).date_time] *)
Definition first_stamp : stamp := mkStamp 1980 1 1 1 1 1.
Definition latest (dates : pystr -> stamp) (top : pystr) (ms : list member) : stamp :=
  fold_left (fun dt m => if is_extractable (m_name m) NXDL_file_endings (allowed_parents top) then stamp_max (dates (m_name m)) dt else dt)
    ms first_stamp.

(** punx/cache_manager.py:218-225: the dictionary; [now] is [str(datetime.now())] *)
Definition info_dict (name sha : pystr) (dt : stamp) (now : pystr) : dict pystr :=
  [(py "ref", name); (py "sha", sha); (py "zip_url", zip_url name); (py "last_modified", isoformat dt);
   (py "# description", py "NXDL files downloaded from GitHub repository"); (py "# written", now)].

(** punx/cache_manager.py:214-228, and 109-115 write_json_file: the text of the info
    file.  All of it is ASCII, so the encoding of the file does not matter. *)
Definition info_text (dates : pystr -> stamp) (comment : list N) (now : pystr) (ms : list member) (name : pystr) : res pystr :=
  let dt := latest dates (match ms with [] => [] | m :: _ => hd [] (split ch_slash (m_name m)) end) ms in
  if real_date dt then
    dor sha <- decode_bytes EncUtf8 comment ;
    Ok (dumps (info_dict name sha dt now))
  else Exn ValueError.

(** an archive as it comes from GitHub: the members, their dates, the comment; and the
    clock *)
Definition github_archive (ms : list member) (dates : pystr -> stamp) (comment : list N) (now : pystr) : archive :=
  mkZ ms (info_text dates comment now ms).

(** ** Reading *)
(** [obj.get(k)].  Simplification: a value that is neither text nor null is outside the
    model. *)
Definition get_text (d : dict json) (k : pystr) : res (option pystr) :=
  match dget k d with
  | None | Some JNull => Ok None
  | Some (JStr s) => Ok (Some s)
  | Some _ => Exn Unsupported
  end.
(** punx/cache_manager.py:118-124 read_json_file and 528-531: only a dictionary has
    [get].  Simplification: the file is read as text with its characters as they are; line
    ends other than "\n" become "\n", which makes no difference to the reader. *)
Definition read_json : json_reader := fun text =>
  dor v <- loads text ;
  match v with
  | JObj d =>
      dor ref <- get_text d (py "ref") ;
      dor sha <- get_text d (py "sha") ;
      dor url <- get_text d (py "zip_url") ;
      dor date <- get_text d (py "last_modified") ;
      Ok (mkI ref sha url date)
  | _ => Exn AttributeError
  end.
