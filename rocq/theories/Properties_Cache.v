(** * Properties of the file set caches (C46-C49, C55, C75) *)

From Coq Require Import List NArith ZArith Bool String Permutation Lia.
From Verif Require Import PyBase PyFacts Cache Spec_FileSets CacheSetFacts.
Import ListNotations.
Open Scope string_scope.
Open Scope list_scope.

(** ** Samples *)
(** a stand-in for the JSON reader: the text is the date, "?" is no JSON, and what was written
    in 2015 has no hash *)
Definition rj0 : json_reader := fun text =>
  if str_eqb text (py "?") then Exn ValueError
  else Ok (mkI (Some text) (if str_eqb text (py "2015") then None else Some (py "0123456789")) None (if str_eqb text (py "-") then None else Some text)).
Definition set0 (date : string) : tree := TDir [(py "nxdl.xsd", TFile []); (py "__github_info__.json", TFile (py date))].
(** the source cache has v3 and v2018 (and a file and a bare directory), the user's has main and its own v3 *)
Definition disk0 : disk := mkDisk (py "/x/punx/cache") [(py "punx.ini", TFile []); (py "v3", set0 "2017"); (py "v2018", set0 "2018"); (py "tmp", TDir [])]
                                  (py "/home/u") [(py "v3", set0 "2016"); (py "main", set0 "2018")].
Definition disk_undated : disk := mkDisk (py "/s") [(py "a", set0 "-"); (py "b", set0 "1")] (py "/u") [].
Definition disk_unhashed : disk := mkDisk (py "/x/punx/cache") [(py "v2018", set0 "2018")] (py "/home/u") [(py "own", set0 "2015")].
Definition disk_empty : disk := mkDisk (py "/s") [] (py "/u") [].

Definition fs0 (path cache date : string) : fileset := mkFS (py path) (py cache) (mkI (Some (py date)) (Some (py "0123456789")) None (Some (py date))).

Lemma NoDup3 : NoDup (map fst (src_dir disk0)) /\ NoDup (map fst (usr_dir disk0)).
Proof. split; repeat constructor; cbn; intros X; repeat destruct X as [X | X]; try discriminate; auto. Qed.

(** ** C46 *)
(** what is listed: the directories with an info file, the user's before the source's *)
Theorem C46_sets : forall rj k sets, all_file_sets rj k = Ok sets -> distinct_names k ->
  NoDup (map fst sets) /\ forall n fs, dget n sets = Some fs <->
    offered rj (usr_path k) (usr_dir k) n fs
    \/ ((forall f, ~ offered rj (usr_path k) (usr_dir k) n f) /\ offered rj (src_path k) (src_dir k) n fs).
Proof. exact all_sets_spec. Qed.
Print Assumptions C46_sets.

(** listing succeeds exactly if every info file of both caches can be read *)
Theorem C46_total : forall rj k, readable rj (src_dir k) -> readable rj (usr_dir k) -> exists sets, all_file_sets rj k = Ok sets.
Proof. exact all_sets_total. Qed.
Print Assumptions C46_total.

Theorem C46_readable : forall rj k sets, all_file_sets rj k = Ok sets -> readable rj (src_dir k) /\ readable rj (usr_dir k).
Proof. exact all_sets_readable. Qed.
Print Assumptions C46_readable.

Example C46_example : distinct_names disk0 /\ all_file_sets rj0 disk0 =
  Ok [(py "v3", fs0 "/home/u/v3" "user" "2016"); (py "v2018", fs0 "/x/punx/cache/v2018" "source" "2018"); (py "main", fs0 "/home/u/main" "user" "2018")].
Proof. split; [exact NoDup3 | vm_compute; reflexivity]. Qed.

(** ** C47 *)
(** The named set if there is one of that name, otherwise the newest; IndexError if
    there is none at all, TypeError if there are several and one has no date, or if the
    set has a ref but no hash. *)
Theorem C47_select : forall sets ref, NoDup (map fst sets) ->
  (comparable sets /\ exists fs, (described fs /\ select sets ref = Ok fs \/ ~ described fs /\ select sets ref = Exn TypeError)
     /\ ((exists r, ref = Some r /\ dget r sets = Some fs)
         \/ ((forall r, ref = Some r -> dget r sets = None) /\ exists n, newest sets n fs)))
  \/ (sets = [] /\ select sets ref = Exn IndexError)
  \/ (~ comparable sets /\ select sets ref = Exn TypeError).
Proof. exact select_cases. Qed.
Print Assumptions C47_select.

(** there is only one newest *)
Theorem C47_unique : forall sets n fs n' fs', newest sets n fs -> newest sets n' fs' -> (n, fs) = (n', fs').
Proof. exact newest_unique. Qed.
Print Assumptions C47_unique.

(** the selected set is the default from then on *)
Theorem C47_default : forall rj k p r fs, snd (used_file_set rj k p (Some r)) = Ok fs ->
  forall k', snd (used_file_set rj k' (fst (used_file_set rj k p (Some r))) None) = Ok fs.
Proof.
  intros rj k p r fs H k'. unfold used_file_set in *. destruct (cache_manager rj k p) as [p' [c|e]]; [|discriminate].
  unfold select in H. destruct (choose (cm_sets c) (Some r)) as [f|e]; [|discriminate]. cbn [rbind] in H. destruct (has_text f); [|discriminate]. exact H.
Qed.
Print Assumptions C47_default.

(** of two sets of the same date the one listed first is taken *)
Example C47_example : match all_file_sets rj0 disk0 with
  | Ok sets => NoDup (map fst sets) /\ comparable sets /\ select sets None = Ok (fs0 "/x/punx/cache/v2018" "source" "2018")
               /\ select sets (Some (py "v3")) = Ok (fs0 "/home/u/v3" "user" "2016")
  | Exn _ => False
  end.
Proof.
  destruct (all_file_sets rj0 disk0) as [sets|] eqn:E; [|vm_compute in E; discriminate].
  split; [eapply all_sets_NoDup; eauto|]. vm_compute in E. injection E as <-.
  split; [|split; vm_compute; reflexivity]. right. intros n fs [H | [H | [H | []]]]; injection H as _ <-; discriminate.
Qed.

(** ** C48 *)
(** an unknown name is not rejected *)
Theorem C48_refuted : exists sets r fs, all_file_sets rj0 disk0 = Ok sets /\ dget r sets = None /\ select sets (Some r) = Ok fs.
Proof.
  exists [(py "v3", fs0 "/home/u/v3" "user" "2016"); (py "v2018", fs0 "/x/punx/cache/v2018" "source" "2018"); (py "main", fs0 "/home/u/main" "user" "2018")],
    (py "nonsense"), (fs0 "/x/punx/cache/v2018" "source" "2018").
  split; [vm_compute; reflexivity | split; vm_compute; reflexivity].
Qed.
Print Assumptions C48_refuted.

(** KeyError is never raised; the name matters only if the set for it has no hash *)
Theorem C48_partial : forall sets r e, NoDup (map fst sets) -> select sets (Some r) = Exn e ->
  (sets = [] /\ e = IndexError) \/ (~ comparable sets /\ e = TypeError) \/ (e = TypeError /\ exists fs, picked sets r fs /\ ~ described fs).
Proof.
  intros sets r e HN H. unfold select in H. destruct (choose sets (Some r)) as [fs|e'] eqn:C; cbn [rbind] in H.
  - apply choose_picked in C as [_ P]; [|exact HN]. pose proof (has_text_spec fs) as T.
    destruct (has_text fs); [discriminate|]. injection H as <-. right. right. split; eauto.
  - injection H as <-. destruct (choose_cases sets (Some r) HN) as [(_ & fs & E & _) | [[A E] | [A E]]]; rewrite E in C; inversion C; auto.
Qed.
Print Assumptions C48_partial.

Example C48_example : all_file_sets rj0 disk_empty = Ok [] /\ select [] (Some (py "v3")) = Exn IndexError
  /\ match all_file_sets rj0 disk_undated with Ok sets => select sets (Some (py "a")) = Exn TypeError | Exn _ => False end
  /\ match all_file_sets rj0 disk_unhashed with
     | Ok sets => select sets (Some (py "own")) = Exn TypeError /\ exists fs, select sets (Some (py "v2018")) = Ok fs
     | Exn _ => False
     end.
Proof. split; [reflexivity|]. split; [reflexivity|]. split; [vm_compute; reflexivity|]. vm_compute. eauto. Qed.

(** ** C49 *)
(** after a validator was made for a named set, an unnamed one uses that set *)
Theorem C49_refuted : exists h sets fs fs', all_file_sets rj0 disk0 = Ok sets
  /\ snd (used_file_set rj0 disk0 (crun rj0 []) None) = Ok fs
  /\ h = [(disk0, CValidator (Some (py "v3")))] /\ snd (used_file_set rj0 disk0 (crun rj0 h) None) = Ok fs' /\ fs_path fs <> fs_path fs'.
Proof.
  eexists _, _, (fs0 "/x/punx/cache/v2018" "source" "2018"), (fs0 "/home/u/v3" "user" "2016").
  split; [vm_compute; reflexivity|]. split; [vm_compute; reflexivity|]. split; [reflexivity|]. split; [vm_compute; reflexivity | discriminate].
Qed.
Print Assumptions C49_refuted.

(** What an unnamed validator uses after any history of the process, with any
    changes of the caches in between: the set of the last validator asked for by name, even
    if that one failed, or, if there was none, the newest at the time when file sets were first listed. *)
Theorem C49_partial : forall rj h k fs, snd (used_file_set rj k (crun rj h) None) = Ok fs ->
  last_named rj h fs \/ (none_named rj h /\ first_newest rj (h ++ [(k, CValidator None)]) fs).
Proof. exact unnamed. Qed.
Print Assumptions C49_partial.

(** both cases: a fresh process, and one with a named validator before *)
Example C49_example : snd (used_file_set rj0 disk0 (crun rj0 []) None) = Ok (fs0 "/x/punx/cache/v2018" "source" "2018")
  /\ snd (used_file_set rj0 disk_empty (crun rj0 [(disk0, CValidator None); (disk_empty, CRefresh); (disk0, CRefresh); (disk0, CValidator (Some (py "main")))]) None)
     = Ok (fs0 "/home/u/main" "user" "2018").
Proof. vm_compute. auto. Qed.

(** a failed one: the set without a hash is the default afterwards *)
Example C49_failed : let p := crun rj0 [(disk_unhashed, CValidator None)] in
  snd (used_file_set rj0 disk_unhashed p None) = Ok (fs0 "/x/punx/cache/v2018" "source" "2018")
  /\ snd (used_file_set rj0 disk_unhashed p (Some (py "own"))) = Exn TypeError
  /\ match snd (used_file_set rj0 disk_unhashed (fst (used_file_set rj0 disk_unhashed p (Some (py "own")))) None) with
     | Ok fs => fs_path fs = py "/home/u/own"
     | Exn _ => False
     end.
Proof. vm_compute. auto. Qed.

(** ** C55 *)
Theorem C55_prefix : forall s, get_short_sha s = firstn (Nat.min 7 (List.length s)) s
  /\ List.length (get_short_sha s) = Nat.min 7 (List.length s) /\ exists rest, s = get_short_sha s ++ rest.
Proof.
  intros s. split; [reflexivity|]. split.
  - rewrite short_sha, firstn_length. reflexivity.
  - exists (skipn 7 s). rewrite short_sha, firstn_skipn. reflexivity.
Qed.
Print Assumptions C55_prefix.

Example C55_example : get_short_sha (py "a3045fd1") = py "a3045fd" /\ get_short_sha (py "a3") = py "a3".
Proof. vm_compute. auto. Qed.

(** ** C75: the table of caches *)
(** one row per file set, oldest first *)
Theorem C75_rows : forall rj k rows, table_of_caches rj k = Ok rows ->
  exists sets order, all_file_sets rj k = Ok sets /\ Permutation order sets /\ oldest_first order
    /\ Forall2 (fun nf row => row_of (fst nf) (snd nf) row) order rows.
Proof. exact table_spec. Qed.
Print Assumptions C75_rows.

Theorem C75_total : forall rj k sets, all_file_sets rj k = Ok sets -> comparable sets ->
  (forall n f, In (n, f) sets -> i_sha (fs_info f) <> None) -> exists rows, table_of_caches rj k = Ok rows.
Proof. exact table_total. Qed.
Print Assumptions C75_total.

Example C75_example : table_of_caches rj0 disk0 = Ok
  [[py "v3"; py "user"; py "2016"; py "0123456"; py "/home/u/v3"];
   [py "v2018"; py "source"; py "2018"; py "0123456"; py "/x/punx/cache/v2018"];
   [py "main"; py "user"; py "2018"; py "0123456"; py "/home/u/main"]].
Proof. vm_compute. reflexivity. Qed.
