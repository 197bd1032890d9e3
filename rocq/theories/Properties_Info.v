(** * Properties of the info file of a file set *)

From Coq Require Import List NArith ZArith Bool String Lia.
From Verif Require Import PyBase PyFacts Utf8 H5 Json JsonFacts JsonEnd Cache Spec_FileSets CacheSetFacts
  Install Spec_Install InstallFacts InstallEnd InfoFile Spec_Info InfoFacts InfoCrash Cli Main.
Import ListNotations.
Open Scope string_scope.
Open Scope list_scope.

(** ** Samples *)
Definition ms1 : list member :=
  [mkM (py "definitions-3.3/") []; mkM (py "definitions-3.3/nxdl.xsd") (py "ab");
   mkM (py "definitions-3.3/base_classes/NXentry.nxdl.xml") (py "cd"); mkM (py "definitions-3.3/README.md") (py "ef")].
Definition dates1 (n : pystr) : stamp :=
  if str_eqb n (py "definitions-3.3/nxdl.xsd") then mkStamp 2016 11 19 1 7 45
  else if str_eqb n (py "definitions-3.3/README.md") then mkStamp 2019 1 1 0 0 0
  else mkStamp 2017 7 12 10 41 12.
Definition sha1 : pystr := py "9285af9c80ff5bc4e908ee8aae300f974dda7d38".
Definition now1 : pystr := py "2022-01-01 13:01:35.673810".
Definition zip1 : archive := github_archive ms1 dates1 sha1 now1.
Definition net1 : nat -> answer := fun _ => AnArchive zip1.
Definition top1 : pystr := py "definitions-3.3".

Lemma zip1_plain : plain_archive zip1 top1 (py "v3.3").
Proof.
  constructor.
  - exists (mkM (py "definitions-3.3/") []). eexists. split; [reflexivity | vm_compute; reflexivity].
  - repeat split; discriminate.
  - discriminate.
  - intros m I D. apply extractable_spec in D; [|discriminate]. simpl in I. destruct I as [<- | [<- | [<- | [<- | []]]]]; vm_compute in D; try discriminate D;
      (eexists; split; [apply destination_spec; vm_compute; reflexivity | vm_compute; intuition discriminate]).
Qed.

Lemma literal_ordinary : forall s, forallb (fun c => c <? 128)%N s = true -> ordinary s.
Proof. intros s H. apply ordinary_plain, plain_literal, H. Qed.

(** the info file that comes with punx in punx/cache/v3.3 *)
Definition shipped : pystr := py "{
  ""ref"": ""v3.3"",
  ""sha"": ""9285af9c80ff5bc4e908ee8aae300f974dda7d38"",
  ""zip_url"": ""https://github.com/nexusformat/definitions/archive/v3.3.zip"",
  ""last_modified"": ""2017-07-12 10:41:12"",
  ""# description"": ""NXDL files downloaded from GitHub repository"",
  ""# written"": ""2022-01-01 13:01:35.673810""
}".

(** ** C112 *)
(** a file set that was installed is on offer under its name, with this name as its ref, the
    comment of the archive as its hash, the address it was loaded from, and the latest date
    of its definition files *)
Theorem C112_offered : forall ms dates comment now top name replace net e cpath, let z := github_archive ms dates comment now in
  net 0 = AnArchive z -> plain_archive z top name -> ordinary name -> ordinary now ->
  snd (snd (download_file_set name replace net e)) = Ok tt -> ~ In name (map fst e) \/ replace = true ->
  exists sha dt date label, utf8_encode sha = Ok comment /\ latest_date ms dates top dt /\ shows_date dt date /\ labelled (cpath ++ py "/" ++ name) label
    /\ offered read_json cpath (snd (fst (snd (download_file_set name replace net e)))) name
         (mkFS (cpath ++ py "/" ++ name) label
            (mkI (Some name) (Some sha) (Some (py "https://github.com/nexusformat/definitions/archive/" ++ name ++ py ".zip")) (Some date))).
Proof.
  intros ms dates comment now top name replace net e cpath z N PA On Ow H D.
  destruct (end_installed z top name e PA _ _ N H) as [[A B] | I]; [exfalso; destruct D as [D | D]; [apply dmem_In in A; contradiction | congruence]|].
  destruct (installed_complete z top name e PA _ I) as (text & t & Z & G & (es & -> & F & _) & _).
  apply info_text_spec in Z as (sha & C & U & ->).
  assert (Et : top_name ms = top) by (destruct (pa_top _ _ _ PA) as (m & rest & Em & ->); cbn [z github_archive z_members] in Em; subst ms; reflexivity).
  rewrite Et in *.
  exists sha, (latest dates top ms), (isoformat (latest dates top ms)), (cache_label (cpath ++ py "/" ++ name)).
  split; [exact U|]. split; [apply latest_spec; apply PA|]. split; [apply iso_shows, C|]. split; [apply cache_label_spec; reflexivity|].
  exists es. eexists. eexists. eexists. split; [exact G|]. split.
  { unfold file_at in F. rewrite tget_cons in F. destruct (dget (py "__github_info__.json") es) as [[c|u]|]; [|discriminate|discriminate]. cbn [tsub] in F. injection F as ->. reflexivity. }
  split; [apply read_written; [apply ordinary_writable, On | eapply encoded_writable, U | apply ordinary_writable, Ow]|].
  split; [apply cache_label_spec; reflexivity | reflexivity].
Qed.
Print Assumptions C112_offered.

(** an archive whose latest date is no date of the calendar, or whose comment is not UTF-8, is
    not installed *)
Theorem C112_refused : forall ms dates comment now top name replace net e, let z := github_archive ms dates comment now in
  net 0 = AnArchive z -> plain_archive z top name -> ~ In name (map fst e) \/ replace = true ->
  (forall dt, latest_date ms dates top dt -> ~ calendar dt) \/ (forall sha, utf8_encode sha <> Ok comment) ->
  snd (snd (download_file_set name replace net e)) <> Ok tt.
Proof.
  intros ms dates comment now top name replace net e z N PA D B H.
  destruct (end_installed z top name e PA _ _ N H) as [[A X] | I]; [exfalso; destruct D as [D | D]; [apply dmem_In in A; contradiction | congruence]|].
  destruct (installed_complete z top name e PA _ I) as (text & t & Z & _).
  apply info_text_spec in Z as (sha & C & U & ->).
  assert (Et : top_name ms = top) by (destruct (pa_top _ _ _ PA) as (m & rest & Em & ->); cbn [z github_archive z_members] in Em; subst ms; reflexivity).
  rewrite Et in *. destruct B as [B | B]; [|apply (B sha U)]. apply (B (latest dates top ms)); [|exact C]. apply latest_spec. apply PA.
Qed.
Print Assumptions C112_refused.

Example C112_example : plain_archive zip1 top1 (py "v3.3") /\ ordinary (py "v3.3") /\ ordinary now1
  /\ snd (snd (download_file_set (py "v3.3") false net1 [])) = Ok tt
  /\ file_at [py "v3.3"; py "__github_info__.json"] (snd (fst (snd (download_file_set (py "v3.3") false net1 [])))) = Some shipped
  /\ cache_sets read_json (py "/home/me/.config/punx") [] (snd (fst (snd (download_file_set (py "v3.3") false net1 []))))
     = Ok [(py "v3.3", mkFS (py "/home/me/.config/punx/v3.3") (py "user")
              (mkI (Some (py "v3.3")) (Some sha1) (Some (py "https://github.com/nexusformat/definitions/archive/v3.3.zip")) (Some (py "2017-07-12 10:41:12"))))].
Proof.
  split; [exact zip1_plain|]. split; [apply literal_ordinary; reflexivity|]. split; [apply literal_ordinary; reflexivity|].
  split; [vm_compute; reflexivity|]. split; vm_compute; reflexivity.
Qed.

(** a comment that is not UTF-8; the 31st of February *)
Example C112_refused_case :
  snd (snd (download_file_set (py "v3.3") false (fun _ => AnArchive (github_archive ms1 dates1 [255%N] now1)) [])) = Exn UnicodeDecodeError
  /\ snd (snd (download_file_set (py "v3.3") false (fun _ => AnArchive (github_archive ms1 (fun _ => mkStamp 2017 2 31 0 0 0) sha1 now1)) [])) = Exn ValueError
  /\ ~ calendar (mkStamp 2017 2 31 0 0 0) /\ calendar (mkStamp 2016 2 29 23 59 59).
Proof.
  split; [vm_compute; reflexivity|]. split; [vm_compute; reflexivity|]. rewrite <- !real_spec. vm_compute. split; [discriminate | reflexivity].
Qed.

(** ** C113 *)
(** the info file is read back as it was written *)
Theorem C113_whole : forall dates comment now ms name text, ordinary name -> ordinary now -> info_text dates comment now ms name = Ok text ->
  exists i, read_json text = Ok i /\ i_ref i = Some name.
Proof.
  intros dates comment now ms name text On Ow Z. apply info_text_spec in Z as (sha & C & U & ->). eexists. split.
  - apply read_written; [apply ordinary_writable, On | eapply encoded_writable, U | apply ordinary_writable, Ow].
  - reflexivity.
Qed.
Print Assumptions C113_whole.

(** and only if it is whole *)
Theorem C113_half : forall dates comment now ms name text c, ordinary name -> ordinary now -> info_text dates comment now ms name = Ok text ->
  beginning c text -> c <> text -> read_json c = Exn ValueError.
Proof.
  intros dates comment now ms name text c On Ow Z B N. apply info_text_spec in Z as (sha & C & U & ->).
  eapply read_half; [apply ordinary_writable, On | eapply encoded_writable, U | apply ordinary_writable, Ow | exact B | exact N].
Qed.
Print Assumptions C113_half.

Example C113_example : info_text dates1 sha1 now1 ms1 (py "v3.3") = Ok shipped
  /\ read_json (firstn 200 shipped) = Exn ValueError /\ beginning (firstn 200 shipped) shipped /\ firstn 200 shipped <> shipped
  /\ read_json shipped = Ok (mkI (Some (py "v3.3")) (Some sha1) (Some (py "https://github.com/nexusformat/definitions/archive/v3.3.zip")) (Some (py "2017-07-12 10:41:12"))).
Proof.
  split; [vm_compute; reflexivity|]. split; [vm_compute; reflexivity|].
  split; [exists (skipn 200 shipped); symmetry; apply firstn_skipn|]. split; [vm_compute; discriminate | vm_compute; reflexivity].
Qed.

(** names with quotes, line ends, characters beyond U+FFFF and single surrogates *)
Example C113_odd_name : let name := [34; 92; 10; 128512; 56832; 55357; 233; 0]%N in ordinary name
  /\ match info_text dates1 sha1 now1 ms1 name with Ok text => rmap i_ref (read_json text) | Exn e => Exn e end = Ok (Some name).
Proof.
  cbv zeta. split; [|vm_compute; reflexivity]. split.
  - intros c H. cbn in H. intuition (subst; reflexivity).
  - intros a x y b E [[H1 H2] [H3 H4]].
    do 7 (destruct a as [|? a]; [cbn in E; injection E as <- <- _; lia | cbn in E; injection E as _ E]). destruct a as [|? [|? ?]]; discriminate.
Qed.

(** a pair of surrogates is read as one character *)
Example C113_pair : let name := [55357; 56832]%N in ~ ordinary name
  /\ match info_text dates1 sha1 now1 ms1 name with Ok text => rmap i_ref (read_json text) | Exn e => Exn e end = Ok (Some [128512%N]).
Proof. cbv zeta. split; [|vm_compute; reflexivity]. intros [_ H]. apply (H [] 55357%N 56832%N [] eq_refl). lia. Qed.

(** ** C73 again, now with the JSON text *)
Definition half_written (z : archive) (top name : pystr) (s : entries) : Prop :=
  exists text c, z_info z name = Ok text /\ beginning c text /\ c <> text /\ tget [top; py "__github_info__.json"] s = Some (TFile c).

(** at every crash point the file sets can be listed, or the info file is half written, and then
    they cannot *)
Theorem C73_crash : forall ms dates comment now top name replace net e s, let z := github_archive ms dates comment now in
  net 0 = AnArchive z -> plain_archive z top name -> ordinary name -> ordinary now ->
  readable read_json e -> (forall sub, dget name e = Some (TDir sub) -> NoDup (map fst sub)) ->
  visited e (snd (download_file_set name replace net e)) s ->
  readable read_json s \/ (half_written z top name s /\ forall cpath, cache_sets read_json cpath [] s = Exn ValueError).
Proof.
  intros ms dates comment now top name replace net e s z N PA On Ow R ND V.
  apply (phase_half z top name e PA); auto; [eapply visited_phase; eauto | |].
  - intros text Z. destruct (C113_whole _ _ _ _ _ _ On Ow Z) as (i & Ri & _). eauto.
  - intros text c Z. apply (C113_half _ _ _ _ _ _ _ On Ow Z).
Qed.
Print Assumptions C73_crash.

(** every installation passes through such a point, and if it stops there every later command
    fails, also the one that would install again *)
Theorem C73_stuck : forall ms dates comment now top name replace net e, let z := github_archive ms dates comment now in
  net 0 = AnArchive z -> plain_archive z top name -> ordinary name -> ordinary now ->
  readable read_json e -> (forall sub, dget name e = Some (TDir sub) -> NoDup (map fst sub)) ->
  snd (snd (download_file_set name replace net e)) = Ok tt -> ~ In name (map fst e) \/ replace = true ->
  exists s, visited e (snd (download_file_set name replace net e)) s
    /\ forall x spath sdir upath w argv, x_json x = read_json -> readable read_json sdir ->
         main x (mkDisk spath sdir upath s) w argv = ([], s, ([], Exn ValueError)).
Proof.
  intros ms dates comment now top name replace net e z N PA On Ow R ND H D.
  assert (T : forall text, z_info z name = Ok text -> text <> []).
  { intros text Z ->. apply info_text_spec in Z as (sha & _ & _ & Z). discriminate. }
  destruct (visited_empty z top name replace net e N PA D H) as (s & e1 & V & X & W). { intros Z. apply (T _ Z). reflexivity. }
  exists s. split; [exact V|]. intros x spath sdir upath w argv J Rs.
  destruct (C73_crash ms dates comment now top name replace net e s N PA On Ow R ND V) as [Rd | [_ B]].
  - exfalso. destruct W as (sub & G & _ & ->). destruct (Rd top (dset INFO_FILE_NAME (TFile []) sub) (TFile [])) as (text & i & E & Ri).
    + apply dget_In. rewrite dget_dset, str_eqb_refl. reflexivity.
    + change (py "__github_info__.json") with INFO_FILE_NAME. rewrite dget_dset, str_eqb_refl. reflexivity.
    + injection E as <-. vm_compute in Ri. discriminate.
  - destruct (cache_sets_total read_json spath sdir [] Rs) as (a & Ra).
    unfold main, cache_manager, cm_init, all_file_sets. cbn [src_path src_dir usr_path usr_dir]. rewrite J, Ra. cbn [rbind]. rewrite B. reflexivity.
Qed.
Print Assumptions C73_stuck.

Example C73_crash_case : readable read_json [] /\ snd (snd (download_file_set (py "v3.3") false net1 [])) = Ok tt
  /\ exists s, visited [] (snd (download_file_set (py "v3.3") false net1 [])) s /\ half_written zip1 top1 (py "v3.3") s.
Proof.
  split; [intros ? ? ? []|]. split; [vm_compute; reflexivity|].
  destruct (visited_empty zip1 top1 (py "v3.3") false net1 [] eq_refl zip1_plain) as (s & e1 & V & X & (sub & G & _ & ->)).
  - left. intros [].
  - vm_compute. reflexivity.
  - vm_compute. discriminate.
  - eexists. split; [exact V|]. exists shipped, []. split; [vm_compute; reflexivity|]. split; [exists shipped; reflexivity|]. split; [discriminate|].
    rewrite tget_cons, dget_dset, str_eqb_refl. cbn [tsub]. rewrite tget_cons. change (py "__github_info__.json") with INFO_FILE_NAME. rewrite dget_dset, str_eqb_refl. reflexivity.
Qed.

(** ** C114 *)
(** of two dates as text the later one is the later date *)
Theorem C114_order : forall a b sa sb, shows_date a sa -> shows_date b sb -> (later sa sb <-> before b a).
Proof. intros a b sa sb A B. unfold later. rewrite (shows_leb _ _ _ _ A B). apply leb_before. Qed.
Print Assumptions C114_order.

(** so if the dates of all file sets are as punx writes them, no file set has a later date
    than the one that is used by default *)
Theorem C114_newest : forall sets (date : pystr -> stamp) n fs, NoDup (map fst sets) ->
  (forall m f, In (m, f) sets -> exists s, fs_date f = Some s /\ shows_date (date m) s) ->
  newest sets n fs -> forall m, In m (map fst sets) -> ~ before (date n) (date m).
Proof.
  intros sets date n fs ND H (b & a & E & Hb & Ha) m I B. apply in_map_iff in I as ((m' & f) & <- & I). cbn [fst] in B.
  destruct (H m' f I) as (s & Fs & S).
  destruct (H n fs ltac:(rewrite E; apply in_or_app; right; left; reflexivity)) as (s0 & F0 & S0).
  assert (L : later s s0) by (apply (C114_order _ _ _ _ S S0), B).
  rewrite E in I. apply in_app_or in I as [I | [I | I]].
  - specialize (Hb _ _ I). unfold the_date in Hb. rewrite Fs, F0 in Hb. apply (C114_order _ _ _ _ S0 S) in Hb. unfold before in *. lia.
  - injection I as <- <-. unfold before in B. lia.
  - apply (Ha _ _ I). unfold the_date. rewrite Fs, F0. exact L.
Qed.
Print Assumptions C114_newest.

Example C114_example : shows_date (mkStamp 2017 7 12 10 41 12) (py "2017-07-12 10:41:12") /\ shows_date (mkStamp 2017 10 2 0 0 0) (py "2017-10-02 00:00:00")
  /\ later (py "2017-10-02 00:00:00") (py "2017-07-12 10:41:12")
  /\ exists sets fs, cache_sets read_json (py "/c") [] [(py "v3.3", TDir [(INFO_FILE_NAME, TFile shipped)])] = Ok sets /\ newest sets (py "v3.3") fs
       /\ fs_date fs = Some (py "2017-07-12 10:41:12").
Proof.
  assert (S : forall t, real_date t = true -> shows_date t (isoformat t)) by (intros t H; apply iso_shows, real_spec, H).
  split; [apply (S (mkStamp 2017 7 12 10 41 12)); reflexivity|]. split; [apply (S (mkStamp 2017 10 2 0 0 0)); reflexivity|]. split; [vm_compute; reflexivity|].
  eexists. eexists. split; [vm_compute; reflexivity|]. split; [exists [], []; split; [reflexivity|]; split; intros ? ? []|]. vm_compute. reflexivity.
Qed.
