(** * Properties: the schema that NXDL files are checked against *)

From Coq Require Import List NArith ZArith Bool String Lia.
From Verif Require Import PyBase PyFacts H5 Report Nxdl NxdlLoad SchemaMgr NxdlSchema Core Validate Cache Install InfoFile Session Cli Args Main Whole Managers
  Spec_Nxdl Spec_Session Spec_Cli Spec_Args Spec_Managers NxdlFacts SessionFacts InstallFacts WholeFacts NeverFacts Samples NxdlSamples ShippedXsd ShippedLines SessionSamples WholeSamples.
From Verif Require Properties_Whole.
Import ListNotations.
Open Scope string_scope.
Open Scope list_scope.

(** ** C117 *)
Lemma load_files_valid : forall valid content files acc d d' cl, load_files valid content acc files d = (d', Ok cl) ->
  forall f, In f files -> exists root, content f = Some root /\ valid root = true.
Proof.
  intros valid content. induction files as [|g files IH]; intros acc d d' cl H f I; [destruct I|]. cbn [load_files] in H.
  destruct (content g) as [root|] eqn:C; [|discriminate].
  destruct (parse_definition valid g root d) as [d1 [def|e]] eqn:P; unfold lbind in H; rewrite P in H; [|discriminate].
  destruct I as [-> | I]; [|eapply IH; eauto]. exists root. split; [exact C|]. unfold parse_definition in P. destruct (valid root); [reflexivity | discriminate].
Qed.

Lemma manager_valid : forall E limit valid D path d cl, nxdl_manager E limit valid D path = Ok (d, cl) ->
  forall cat f, In cat categories -> nxdl_file (sd_ls D) path cat f -> exists root, sd_content D f = Some root /\ valid root = true.
Proof.
  intros E limit valid D path d cl H cat f I F. destruct (manager_parts _ _ _ _ _ _ _ H) as [(su & d0 & d' & _ & _ & M) | (_ & _ & M)].
  - unfold load_manager in M. destruct (get_NXDL_file_list (sd_ls D) path) as [files|e] eqn:L; [|discriminate].
    eapply load_files_valid; [exact M|]. apply (manager_files _ _ _ L). simpl in I. intuition (subst; auto).
  - exfalso. pose proof (proj2 (manager_files _ _ _ M f)) as X. simpl in I. destruct X; intuition (subst; auto).
Qed.

Lemma text_file : forall L es path nx ty c, open_ended path -> nxdl_text es c -> exists cat f, In cat categories
  /\ nxdl_file (sd_ls (files_of L es path nx ty)) path cat f /\ sd_content (files_of L es path nx ty) f = lx_nxdl L c.
Proof.
  intros L es path nx ty c P (cat & base & I & Nb & G). exists cat, (path ++ py "/" ++ cat ++ py "/" ++ base ++ py ".nxdl.xml"). split; [exact I|].
  assert (C : cat <> [] /\ ~ In 47%N cat) by (simpl in I; intuition (subst; vm_compute in *; intuition discriminate)). destruct C as [C1 C2].
  assert (Nn : ~ In 47%N (base ++ py ".nxdl.xml")) by (intros X; apply in_app_or in X as [X | X]; [auto | vm_compute in X; intuition discriminate]).
  split.
  - rewrite tget_cons in G. destruct (dget cat es) as [t|] eqn:Gc; [|discriminate]. destruct t as [x|sub]; [discriminate|]. cbn [tsub] in G. rewrite tget_cons in G.
    exists (map fst sub), base. rewrite (join_plain _ _ P). cbn [files_of sd_ls]. rewrite below_one by exact C2. rewrite tget_cons, Gc. cbn [tsub option_map node_of].
    split; [reflexivity|]. split.
    + destruct (dget (base ++ py ".nxdl.xml") sub) as [t|] eqn:Gb; [|discriminate]. apply dget_In in Gb. apply (in_map fst) in Gb. exact Gb.
    + rewrite join_plain by (apply open_ended_below; auto). rewrite <- !app_assoc. reflexivity.
  - cbn [files_of sd_content]. rewrite below_two by auto. cbv iota beta. match goal with |- context [tget ?q es] => replace (tget q es) with (Some (Cache.TFile c)) by (symmetry; exact G) end. cbn [text_of]. destruct (lx_nxdl L c); reflexivity.
Qed.

Lemma in_cache_open : forall fs, in_a_cache fs -> open_ended (fs_path fs).
Proof. intros fs (d & n & -> & N & H). apply open_ended_below; auto. Qed.

Lemma load_set_valid : forall L E lim k fs u cl es c, load_set L E lim k fs = Ok (u, cl) -> in_a_cache fs -> set_entries k (fs_path fs) = Some es -> nxdl_text es c -> valid_with L es c.
Proof.
  intros L E lim k fs u cl es c H IC Es T. apply in_cache_open in IC. unfold load_set in H. rewrite Es in H. unfold load_entries in H.
  destruct (schema_file L es (py "nxdl.xsd")) as [nx|]; [|discriminate]. destruct (schema_file L es (py "nxdlTypes.xsd")) as [ty|]; [|discriminate]. cbn [rbind] in H.
  match type of H with snd ?o = _ => destruct o as [g o'] eqn:O end. cbn [snd] in H. subst o'. apply open_parts in O as (d & sm & M & _ & _).
  destruct (text_file L es (fs_path fs) nx ty c IC T) as (cat & f & I & F & C). destruct (manager_valid _ _ _ _ _ _ _ M cat f I F) as (root & R & V).
  exists root. split; congruence.
Qed.

(** A validator made with a name, or with the default: each NXDL file of its file set is valid with the
    schema of this file set. *)
Theorem C117_partial : forall L E lim k p a p' fs u cl es c, (forall f, a <> ArgSet f) ->
  make_validator L E lim k p a = (p', Ok (fs, (u, cl))) -> in_a_cache fs -> set_entries k (fs_path fs) = Some es -> nxdl_text es c -> valid_with L es c.
Proof.
  intros L E lim k p a p' fs u cl es c NA H IC Es T.
  assert (Ld : load_set L E lim k fs = Ok (u, cl)).
  { destruct a as [|n|f]; [| |destruct (NA f eq_refl)]; unfold make_validator in H;
    match type of H with context [used_file_set read_json k p ?r] => destruct (used_file_set read_json k p r) as [q [f|e]] end; try discriminate H;
    (destruct (load_set L E lim k f) as [[u0 cl0]|e] eqn:Ld; cbn [rbind] in H; [|discriminate H]; inversion H; subst; exact Ld). }
  eapply load_set_valid; eauto.
Qed.
Print Assumptions C117_partial.

(** A file set is not refused as invalid if its NXDL files are all valid with its schema: neither by its name,
    nor as the default. *)
Lemma file_text : forall L es path nx ty cat f root, open_ended path -> plain_names es -> In cat categories ->
  nxdl_file (sd_ls (files_of L es path nx ty)) path cat f -> sd_content (files_of L es path nx ty) f = Some root ->
  exists c, nxdl_text es c /\ lx_nxdl L c = Some root.
Proof.
  intros L es path nx ty cat f root P PN I (names & base & F & N & ->) C.
  assert (Cn : cat <> [] /\ ~ In 47%N cat) by (simpl in I; intuition (subst; vm_compute in *; intuition discriminate)). destruct Cn as [C1 C2].
  rewrite (join_plain _ _ P) in F, C. cbn [files_of sd_ls] in F. rewrite below_one in F by exact C2. rewrite tget_cons in F.
  destruct (dget cat es) as [t|] eqn:Gc; [|discriminate]. destruct t as [x|sub]; [discriminate|]. cbn [tsub option_map node_of] in F. injection F as <-.
  assert (Nn : ~ In 47%N (base ++ py ".nxdl.xml")) by (eapply PN; [apply dget_In; exact Gc|exact N]).
  rewrite join_plain in C by (apply open_ended_below; auto). cbn [files_of sd_content] in C. rewrite <- !app_assoc in C. rewrite below_two in C by auto. cbv iota beta in C.
  match type of C with context [text_of ?x] => destruct x as [[c|d]|] eqn:G; try discriminate C end. cbn [text_of] in C.
  exists c. split; [|exact C]. exists cat, base. split; [exact I|]. split; [intros X; apply Nn; apply in_or_app; left; exact X|exact G].
Qed.

Lemma element_one : forall L es c kids, one_element L es -> tget [py "nxdl.xsd"] es = Some (Cache.TFile c) -> lx_schema L c = Some kids ->
  List.length (s_named (py "element") (map without_lines kids)) = 1%nat.
Proof.
  intros L es c kids H G S. destruct (H c kids G S) as (a & n & b & -> & N & O).
  assert (W : forall x, s_is (py "element") (without_lines x) = l_is (py "element") x) by (intros [|t li at_ k]; reflexivity).
  assert (Z : forall l, (forall x, In x l -> l_is (py "element") x = false) -> filter (s_is (py "element")) (map without_lines l) = []).
  { induction l as [|x l IH]; intros K; [reflexivity|]. cbn [map filter]. rewrite W, (K x (or_introl eq_refl)). apply IH. intros y I. apply K. right. exact I. }
  unfold s_named. rewrite map_app, filter_app, (Z a) by (intros x I; apply O; left; exact I). cbn [map filter app]. rewrite W, N. rewrite (Z b) by (intros x I; apply O; right; exact I). reflexivity.
Qed.

Lemma load_accepted : forall L E lim es path, open_ended path -> plain_names es -> one_element L es ->
  (forall t, nxdl_text es t -> valid_with L es t) -> load_entries L E lim es path <> Exn InvalidNxdlFile.
Proof.
  intros L E lim es path P PN O V H. unfold load_entries in H.
  destruct (schema_file L es (py "nxdl.xsd")) as [nx|e] eqn:Snx; cbn [rbind] in H.
  2:{ injection H as ->. unfold schema_file in Snx. repeat match type of Snx with (match ?x with _ => _ end) = _ => destruct x; try discriminate end. }
  destruct (schema_file L es (py "nxdlTypes.xsd")) as [ty|e] eqn:Sty; cbn [rbind] in H.
  2:{ injection H as ->. unfold schema_file in Sty. repeat match type of Sty with (match ?x with _ => _ end) = _ => destruct x; try discriminate end. }
  match type of H with context [open_file_set _ _ _ _ ?v ?DD _ _] => set (valid := v) in *; set (D := DD) in * end.
  assert (M : nxdl_manager E (lim_summary lim) valid D path <> Exn InvalidNxdlFile).
  { intros M. apply manager_invalid in M as (files & f & root & Lf & I & C & Vf). apply (manager_files _ _ _ Lf) in I.
    assert (X : exists cat, In cat categories /\ nxdl_file (sd_ls D) path cat f).
    { destruct I as [I|[I|I]]; eexists; (split; [|exact I]); simpl; auto. }
    destruct X as (cat & Ic & Fc). destruct (file_text L es path nx ty cat f root P PN Ic Fc C) as (c & T & R).
    destruct (V c T) as (root' & R' & V'). assert (root' = root) by congruence. subst root'. unfold valid in Vf. congruence. }
  assert (Sm : forall g, snd (schema_manager E (lim_schema lim) (xsd_of D) g) <> Exn InvalidNxdlFile).
  { intros g Sm. apply schema_invalid in Sm as (root & R & Le). unfold D, xsd_of, files_of in R. cbn [sd_nxdl xd_nxdl] in R.
    destruct nx as [kids|]; [|discriminate]. injection R as <-. apply Le. unfold schema_file in Snx.
    destruct (tget [py "nxdl.xsd"] es) as [[c|d]|] eqn:G; try discriminate. destruct (lx_schema L c) as [ks|] eqn:Sk; [|discriminate]. injection Snx as ->.
    eapply element_one; eauto. }
  unfold open_file_set in H. destruct (first_file_checked E (lim_summary lim) D path).
  - specialize (Sm process_start). destruct (schema_manager E (lim_schema lim) (xsd_of D) process_start) as [g [sm|e]]; cbn [snd] in *; [|congruence].
    destruct (nxdl_manager E (lim_summary lim) valid D path) as [dcl|e]; cbn [rbind] in H; congruence.
  - destruct (nxdl_manager E (lim_summary lim) valid D path) as [[d cl]|e]; [|cbn [snd] in H; congruence].
    specialize (Sm process_start). destruct (schema_manager E (lim_schema lim) (xsd_of D) process_start) as [g [sm|e]]; cbn [snd] in *; congruence.
Qed.

Theorem C117_accepted : forall L E lim k p a p' r c fs es, (forall f, a <> ArgSet f) -> make_validator L E lim k p a = (p', r) ->
  p' = Some c -> cm_default c = Some fs -> in_a_cache fs -> set_entries k (fs_path fs) = Some es -> plain_names es -> one_element L es ->
  (forall t, nxdl_text es t -> valid_with L es t) -> r <> Exn InvalidNxdlFile.
Proof.
  intros L E lim k p a p' r c fs es NA H -> Dc IC Es PN O V ->.
  assert (Lo : load_set L E lim k fs <> Exn InvalidNxdlFile).
  { unfold load_set. rewrite Es. apply load_accepted; auto. apply in_cache_open. exact IC. }
  assert (K : forall ref s, used_file_set read_json k p ref = (Some c, s) -> s = Ok fs \/ exists e, s = Exn e /\ e <> InvalidNxdlFile).
  { intros ref s U. unfold used_file_set in U. destruct (cache_manager read_json k p) as [q' s'] eqn:Cm. destruct s' as [c0|e].
    - destruct ref as [n|].
      + destruct (choose (cm_sets c0) (Some n)) as [f|e] eqn:Ch; injection U as U1 U2.
        * subst c s. cbn [cm_default] in Dc. injection Dc as ->. unfold select. rewrite Ch. cbn [rbind]. destruct (has_text fs); [left; reflexivity|].
          right. exists TypeError. split; [reflexivity|discriminate].
        * subst s. right. exists e. split; [reflexivity|]. intros ->. apply (nev_choose (cm_sets c0) (Some n)). exact Ch.
      + injection U as U1 U2. assert (c0 = c) by (unfold cache_manager in Cm; destruct p as [x|]; [|destruct (cm_init read_json k) as [x|]]; congruence). subst c0 s. rewrite Dc. left. reflexivity.
    - injection U as U1 U2. right. exists e. split; [subst; reflexivity|]. intros ->.
      unfold cache_manager in Cm. destruct p as [x|]; [discriminate|]. destruct (cm_init read_json k) as [x|e'] eqn:Ci; [discriminate|].
      injection Cm as <- ->. apply (nev_cm_init k). exact Ci. }
  destruct a as [|n|f]; [| |destruct (NA f eq_refl)]; unfold make_validator in H;
    match type of H with context [used_file_set read_json k p ?ref] => destruct (used_file_set read_json k p ref) as [q [f|e]] eqn:U end; injection H as -> H;
    (destruct (K _ _ U) as [X|(e' & X & Ne)]; [|congruence]); try discriminate X; injection X as ->;
    destruct (load_set L E lim k fs); cbn [rbind] in H; congruence.
Qed.
Print Assumptions C117_accepted.

(** A file set object is not refused as invalid if its NXDL files are all valid with the schema of the default
    file set. *)
Lemma schema_accepted : forall L E fuel es path nx ty g, schema_file L es (py "nxdl.xsd") = Ok nx -> one_element L es ->
  snd (schema_manager E fuel (xsd_of (files_of L es path nx ty)) g) <> Exn InvalidNxdlFile.
Proof.
  intros L E fuel es path nx ty g Snx O Sm. apply schema_invalid in Sm as (root & R & Le). unfold xsd_of, files_of in R. cbn [sd_nxdl xd_nxdl] in R.
  destruct nx as [kids|]; [|discriminate]. injection R as <-. apply Le. unfold schema_file in Snx.
  destruct (tget [py "nxdl.xsd"] es) as [[c|d]|] eqn:G; try discriminate. destruct (lx_schema L c) as [ks|] eqn:Sk; [|discriminate]. injection Snx as ->.
  eapply element_one; eauto.
Qed.
Lemma schema_file_never : forall L es n, schema_file L es n <> Exn InvalidNxdlFile.
Proof. intros L es n H. unfold schema_file in H. repeat match type of H with (match ?x with _ => _ end) = _ => destruct x; try discriminate end. Qed.
Lemma unchecked_never : forall E limit valid D path, first_file_checked E limit D path = false -> nxdl_manager E limit valid D path <> Exn InvalidNxdlFile.
Proof.
  intros E limit valid D path F H. unfold nxdl_manager in H. unfold first_file_checked in F. destruct (sd_ls D path); [|discriminate].
  assert (Nl := nev_file_list (sd_ls D) path). destruct (sd_nxdl D) as [kids|].
  - assert (Ns := nev_summary E limit kids). destruct (nxdl_summary E limit kids) as [su|e]; cbn [rbind] in H; [|apply Ns; congruence].
    unfold load_manager in H. destruct (get_NXDL_file_list (sd_ls D) path) as [[|q files]|e]; [discriminate| |injection H as ->; apply Nl; reflexivity].
    cbn [load_files] in H. destruct (sd_content D q); [discriminate F|discriminate H].
  - destruct (get_NXDL_file_list (sd_ls D) path) as [[|q files]|e]; cbn [rbind] in H; [discriminate|discriminate|]. injection H as ->. apply Nl. reflexivity.
Qed.
Theorem C117_object_accepted : forall L E lim k p fs p' r c d es' es, make_validator L E lim k p (ArgSet fs) = (p', r) ->
  p' = Some c -> cm_default c = Some d -> set_entries k (fs_path d) = Some es' -> in_a_cache fs -> set_entries k (fs_path fs) = Some es ->
  plain_names es -> one_element L es -> one_element L es' -> (forall t, nxdl_text es t -> valid_with L es' t) -> r <> Exn InvalidNxdlFile.
Proof.
  intros L E lim k p fs p' r c d es' es H -> Dc Ed IC Es PN O O' V ->. apply in_cache_open in IC. unfold make_validator in H.
  destruct (cache_manager read_json k p) as [q s] eqn:C.
  assert (X : s = Ok c /\ q = Some c).
  { assert (Eq : q = Some c) by (destruct s as [c0|e]; cbn [rbind] in H; [destruct (cm_default c0) |]; injection H as H _; exact H). split; [|exact Eq]. subst q.
    unfold cache_manager in C. destruct p as [c0|]; [injection C as -> <-; reflexivity|]. destruct (cm_init read_json k); [injection C as -> <-; reflexivity | discriminate]. }
  destruct X as [-> ->]. cbn [rbind] in H. rewrite Dc in H. injection H as H. destruct (str_eqb_spec (fs_path fs) (fs_path d)) as [Ep | Np].
  { assert (es' = es) by congruence. subst es'. unfold load_set in H. rewrite Es in H. pose proof (load_accepted L E lim es (fs_path fs) IC PN O V) as Na.
    destruct (load_entries L E lim es (fs_path fs)); cbn [rbind] in H; congruence. }
  assert (Lo : load_object L E lim k fs (Ok d) = Exn InvalidNxdlFile).
  { destruct (load_object L E lim k fs (Ok d)); cbn [rbind] in H; congruence. }
  clear H. rename Lo into H. unfold load_object in H. rewrite Es in H. pose proof (schema_file_never L es (py "nxdl.xsd")) as N1. pose proof (schema_file_never L es (py "nxdlTypes.xsd")) as N2.
  destruct (schema_file L es (py "nxdl.xsd")) as [nx|e] eqn:Snx; cbn [rbind] in H; [|congruence].
  destruct (schema_file L es (py "nxdlTypes.xsd")) as [ty|e]; cbn [rbind] in H; [|congruence]. clear N1 N2.
  set (D := files_of L es (fs_path fs) nx ty) in *.
  assert (Last : forall g, snd (schema_manager E (lim_schema lim) (xsd_of D) g) <> Exn InvalidNxdlFile) by (intros g; apply schema_accepted; auto).
  destruct (first_file_checked E (lim_summary lim) D (fs_path fs)) eqn:F; cbn [rbind fst snd] in H.
  - rewrite Ed in H. pose proof (schema_file_never L es' (py "nxdl.xsd")) as N1. pose proof (schema_file_never L es' (py "nxdlTypes.xsd")) as N2.
    destruct (schema_file L es' (py "nxdl.xsd")) as [nx'|e] eqn:Snx'; cbn [rbind] in H; [|congruence].
    destruct (schema_file L es' (py "nxdlTypes.xsd")) as [ty'|e]; cbn [rbind] in H; [|congruence].
    pose proof (schema_accepted L E (lim_schema lim) es' (fs_path d) nx' ty' process_start Snx' O') as N3.
    destruct (schema_manager E (lim_schema lim) (xsd_of (files_of L es' (fs_path d) nx' ty')) process_start) as [g [sm|e]]; cbn [rbind fst snd] in *; [|congruence].
    match type of H with context [nxdl_manager E (lim_summary lim) ?v D ?pa] => set (valid := v) in *; assert (M : nxdl_manager E (lim_summary lim) valid D pa <> Exn InvalidNxdlFile) end.
    { intros M. apply manager_invalid in M as (files & f & root & Lf & I & Cf & Vf). apply (manager_files _ _ _ Lf) in I.
      assert (X : exists cat, In cat categories /\ nxdl_file (sd_ls D) (fs_path fs) cat f).
      { destruct I as [I|[I|I]]; eexists; (split; [|exact I]); simpl; auto. }
      destruct X as (cat & Ic & Fc). destruct (file_text L es (fs_path fs) nx ty cat f root IC PN Ic Fc Cf) as (t & T & R).
      destruct (V t T) as (root' & R' & V'). assert (root' = root) by congruence. subst root'. unfold valid in Vf. congruence. }
    destruct (nxdl_manager E (lim_summary lim) valid D (fs_path fs)) as [dcl|e]; cbn [rbind] in H; [|congruence].
    specialize (Last g). destruct (snd (schema_manager E (lim_schema lim) (xsd_of D) g)) as [sm'|e]; cbn [rbind] in H; congruence.
  - pose proof (unchecked_never E (lim_summary lim) (fun _ => false) D (fs_path fs) F) as M.
    destruct (nxdl_manager E (lim_summary lim) (fun _ => false) D (fs_path fs)) as [dcl|e]; cbn [rbind] in H; [|congruence].
    specialize (Last process_start). destruct (snd (schema_manager E (lim_schema lim) (xsd_of D) process_start)) as [sm'|e]; cbn [rbind] in H; congruence.
Qed.
Print Assumptions C117_object_accepted.

(** What [punx validate] reports about a file is according to NXDL files that are valid with the schema of
    their own file set. *)
Theorem C117_command : forall L lim x k w word ws items file fs f rest es c,
  stands_for subcommands word (py "validate") -> line_of (validate_words (x_env x)) ws items -> ~ In VUnknown items -> said validate_file items = [file] ->
  snd (punx L lim x k w (word :: ws)) = (Validating fs f :: rest, Ok tt) -> in_a_cache fs -> set_entries k (fs_path fs) = Some es -> nxdl_text es c ->
  valid_with L es c.
Proof.
  intros L lim x k w word ws items file fs f rest es c St Li NU Sf H IC Es T.
  rewrite (Properties_Whole.validate_line_run _ _ _ _ _ _ _ _ _ St Li NU Sf) in H.
  destruct (endswith file (py ".nxdl.xml")) eqn:NX.
  { unfold punx_validate in H. cbn [cache_manager] in H. destruct (cm_init read_json k) as [c0|e]; [|discriminate]. destruct (default_ref c0) as [ref|e]; [|discriminate].
    unfold func_validate in H. cbn [cache_manager va_infile] in H. rewrite NX in H. discriminate. }
  assert (Ld : exists u cl, load_set L (x_env x) lim k fs = Ok (u, cl)).
  { revert H. unfold punx_validate. cbn [cache_manager]. destruct (cm_init read_json k) as [c0|e]; [|discriminate]. destruct (default_ref c0) as [ref|e]; [|discriminate].
    unfold func_validate. cbn [cache_manager va_infile va_set va_report]. rewrite NX. destruct (all_file_sets read_json k) as [sets|e]; [|discriminate].
    match goal with |- context [match ?o with Some _ => _ | None => (_, ([], Exn (SystemExit 1))) end] => destruct o as [name|] end; [|discriminate].
    destruct (negb (dmem name sets)); [discriminate|]. destruct (used_file_set _ _ _ _) as [p3 [fs'|e]]; [|discriminate].
    destruct (load_set L (x_env x) lim k fs') as [[u cl]|e] eqn:Ld; [|discriminate].
    match goal with |- context [Nat.ltb 0 ?n] => destruct (Nat.ltb 0 n) end; [discriminate|]. destruct (validate u w (new_validator cl) file) as [v [[]|e]]; [|destruct e; discriminate].
    destruct (print_report _ _ _) as [rep|e]; [|discriminate]. cbn [snd app]. intros H. injection H as -> _ _. eauto. }
  destruct Ld as (u & cl & Ld). eapply load_set_valid; eauto.
Qed.
Print Assumptions C117_command.

(** A validator made with a file set object: each NXDL file is valid with the schema of the default file set. *)
Theorem C117_object : forall L E lim k p fs p' fs' u cl c d es' es t, make_validator L E lim k p (ArgSet fs) = (p', Ok (fs', (u, cl))) ->
  p' = Some c -> cm_default c = Some d -> set_entries k (fs_path d) = Some es' ->
  in_a_cache fs -> set_entries k (fs_path fs) = Some es -> nxdl_text es t -> valid_with L es' t.
Proof.
  intros L E lim k p fs p' fs' u cl c d es' es t H -> Dd Ed IC Es T. unfold make_validator in H. destruct (cache_manager read_json k p) as [q r] eqn:C.
  assert (X : r = Ok c /\ q = Some c).
  { assert (Eq : q = Some c) by (destruct r as [c0|e]; cbn [rbind] in H; [destruct (cm_default c0) |]; injection H as H _; exact H). split; [|exact Eq]. subst q.
    unfold cache_manager in C. destruct p as [c0|]; [injection C as -> <-; reflexivity|]. destruct (cm_init read_json k); [injection C as -> <-; reflexivity | discriminate]. }
  destruct X as [-> ->]. cbn [rbind] in H. rewrite Dd in H. destruct (str_eqb_spec (fs_path fs) (fs_path d)) as [Ep | Np].
  { destruct (load_set L E lim k fs) as [[u0 cl0]|e] eqn:Ld; cbn [rbind] in H; [|discriminate]. assert (es' = es) by congruence. subst es'.
    eapply load_set_valid; eauto. }
  destruct (load_object L E lim k fs (Ok d)) as [[u0 cl0]|e] eqn:Ld; cbn [rbind] in H; [|discriminate]. clear H. unfold load_object in Ld. rewrite Es in Ld.
  destruct (schema_file L es (py "nxdl.xsd")) as [nx|]; [|discriminate]. destruct (schema_file L es (py "nxdlTypes.xsd")) as [ty|]; [|discriminate]. cbn [rbind] in Ld.
  apply in_cache_open in IC. destruct (text_file L es (fs_path fs) nx ty t IC T) as (cat & f & I & F & Cf).
  destruct (first_file_checked E (lim_summary lim) (files_of L es (fs_path fs) nx ty) (fs_path fs)); cbn [rbind fst snd] in Ld.
  - rewrite Ed in Ld. destruct (schema_file L es' (py "nxdl.xsd")) as [nx'|]; [|discriminate]. destruct (schema_file L es' (py "nxdlTypes.xsd")) as [ty'|]; [|discriminate]. cbn [rbind] in Ld.
    destruct (schema_manager E (lim_schema lim) _ process_start) as [g [sm|e]]; [|discriminate]. cbn [rbind fst snd] in Ld.
    match type of Ld with context [nxdl_manager ?a ?b ?v ?D ?pa] => destruct (nxdl_manager a b v D pa) as [[d0 cl1]|e] eqn:M end; [|discriminate].
    destruct (manager_valid _ _ _ _ _ _ _ M cat f I F) as (root & R & V). exists root. split; congruence.
  - match type of Ld with context [nxdl_manager ?a ?b ?v ?D ?pa] => destruct (nxdl_manager a b v D pa) as [[d0 cl1]|e] eqn:M end; [|discriminate].
    destruct (manager_valid _ _ _ _ _ _ _ M cat f I F) as (root & R & V). discriminate.
Qed.
Print Assumptions C117_object.

(** ** An example *)
(** the schema of the old file set has no element choice *)
Definition lxml6 : lxml := mkLxml
  (fun c => dget c [(py "plain", nxdl [named "field" "x" []]); (py "choice", nxdl [named "field" "x" []; XN (py "choice") [] []])])
  (fun c => dget c [(py "nxdl old", xsd_v3_3); (py "nxdl new", xsd_v3_3); (py "types", map with_lines nxdlTypes_v3_3)])
  (fun a _ root => match a with
                   | Some t => negb (str_eqb t (py "nxdl old") && existsb (has_tag (py "choice")) (x_kids root))
                   | None => false
                   end).
Definition dir6 (schema content info : pystr) : tree := Cache.TDir
  [(INFO_FILE_NAME, Cache.TFile info); (py "nxdl.xsd", Cache.TFile schema); (py "nxdlTypes.xsd", Cache.TFile (py "types"));
   (py "base_classes", Cache.TDir [(py "NXa.nxdl.xml", Cache.TFile content)]); (py "applications", Cache.TDir []); (py "contributed_definitions", Cache.TDir [])].
Definition info6 (name date : string) : pystr :=
  py "{""ref"": """ ++ py name ++ py """, ""sha"": ""9285af9c80ff5bc4e908ee8aae300f974dda7d38"", ""zip_url"": ""u"", ""last_modified"": """ ++ py date ++ py """}".
(** the NXDL file in "old" has that element, too *)
Definition disk6 : disk := mkDisk (py "/x/punx/cache")
  [(py "old", dir6 (py "nxdl old") (py "choice") (info6 "old" "2017-07-12 10:41:12")); (py "new", dir6 (py "nxdl new") (py "choice") (info6 "new" "2022-07-12 10:41:12"));
   (py "older", dir6 (py "nxdl old") (py "plain") (info6 "older" "2016-07-12 10:41:12"))]
  (py "/home/me/.config/punx") [].
Definition set6 (n : string) : fileset := mkFS (py "/x/punx/cache/" ++ py n) (py "source")
  (mkI (Some (py n)) (Some (py "9285af9c80ff5bc4e908ee8aae300f974dda7d38")) (Some (py "u"))
       (Some (py (if String.eqb n "old" then "2017-07-12 10:41:12" else if String.eqb n "new" then "2022-07-12 10:41:12" else "2016-07-12 10:41:12")))).
Definition made6 (p : proc) (a : set_arg) : res unit := dor r <- snd (make_validator lxml6 env0 limits1 disk6 p a) ; Ok tt.

(** With the file set "new" as the default: "old" is refused by its name, but not as an object.  With "older"
    as the default: "new" is refused as an object, though it is valid with its own schema. *)
Theorem C117_refuted : (exists sets, all_file_sets read_json disk6 = Ok sets /\ (forall n, In n ["old"; "new"; "older"] -> dget (py n) sets = Some (set6 n)))
  /\ made6 None (ArgName (py "old")) = Exn InvalidNxdlFile /\ made6 None (ArgSet (set6 "old")) = Ok tt
  /\ made6 (fst (make_validator lxml6 env0 limits1 disk6 None (ArgName (py "older")))) (ArgSet (set6 "new")) = Exn InvalidNxdlFile
  /\ made6 None (ArgName (py "new")) = Ok tt.
Proof.
  split; [eexists; split; [vm_compute; reflexivity|]; intros n I; simpl in I; intuition (subst; vm_compute; reflexivity)|].
  repeat split; vm_compute; reflexivity.
Qed.
Print Assumptions C117_refuted.

(** for C117_command see also Properties_Whole.C115_case *)
Example C117_case : nxdl_text (match set_entries disk6 (fs_path (set6 "new")) with Some es => es | None => [] end) (py "choice") /\ in_a_cache (set6 "new").
Proof.
  split; [exists (py "base_classes"), (py "NXa"); split; [left; reflexivity|]; split; [vm_compute; intuition discriminate | vm_compute; reflexivity]|].
  exists (py "/x/punx/cache"), (py "new"). split; [reflexivity|]. split; [discriminate | vm_compute; intuition discriminate].
Qed.

(** the file sets "new" and "older" satisfy what C117_accepted and C117_object_accepted ask for *)
Definition entries6 (n : string) : entries := match set_entries disk6 (fs_path (set6 n)) with Some es => es | None => [] end.
Lemma texts6 : forall n c, In n ["old"; "new"; "older"] -> nxdl_text (entries6 n) c -> c = (if String.eqb n "older" then py "plain" else py "choice").
Proof.
  intros n c I (cat & base & Ic & _ & G). assert (D : In (base ++ py ".nxdl.xml", Cache.TFile c) (match dget cat (entries6 n) with Some (Cache.TDir sub) => sub | _ => [] end)).
  { rewrite tget_cons in G. destruct (dget cat (entries6 n)) as [[x|sub]|]; try discriminate G. cbn [tsub] in G. rewrite tget_cons in G.
    destruct (dget (base ++ py ".nxdl.xml") sub) as [t|] eqn:Q; [|discriminate]. cbn [tsub] in G. injection G as ->. apply dget_In in Q. exact Q. }
  simpl in I. simpl in Ic. destruct I as [<-|[<-|[<-|[]]]]; destruct Ic as [<-|[<-|[<-|[]]]]; vm_compute in D; intuition (try discriminate);
    match goal with H : (_, _) = (_, _) |- _ => injection H as _ <-; reflexivity end.
Qed.
Lemma one6_at : exists a n b, xsd_v3_3 = a ++ n :: b /\ l_is (py "element") n = true /\ (forall x, In x a \/ In x b -> l_is (py "element") x = false).
Proof.
  assert (G : forall (f : lnode -> bool) l, Nat.eqb (List.length (filter f l)) 1 = true -> exists a n b, l = a ++ n :: b /\ f n = true /\ (forall x, In x a \/ In x b -> f x = false)).
  { intros f l. induction l as [|x l IH]; [discriminate|]. cbn [filter]. destruct (f x) eqn:F; intros H.
    - exists [], x, l. split; [reflexivity|]. split; [exact F|]. intros y [[]|I]. destruct (f y) eqn:Fy; [|reflexivity].
      assert (J : In y (filter f l)) by (apply filter_In; auto). destruct (filter f l); [destruct J|discriminate].
    - destruct (IH H) as (a & n & b & -> & N & O). exists (x :: a), n, b. split; [reflexivity|]. split; [exact N|]. intros y [[<-|I]|I]; [exact F|apply O; left; exact I|apply O; right; exact I]. }
  apply (G (l_is (py "element"))). vm_compute. reflexivity.
Qed.
Lemma one6 : one_element lxml6 (entries6 "new").
Proof.
  intros c kids G S. assert (G' : tget [py "nxdl.xsd"] (entries6 "new") = Some (Cache.TFile (py "nxdl new"))) by (vm_compute; reflexivity).
  rewrite G' in G. apply (f_equal (fun o => match o with Some (Cache.TFile t) => t | _ => [] end)) in G. cbv beta iota in G. subst c. assert (S' : lx_schema lxml6 (py "nxdl new") = Some xsd_v3_3) by reflexivity. rewrite S' in S.
  replace kids with xsd_v3_3 by (apply (f_equal (fun o => match o with Some k => k | None => [] end)) in S; exact S). exact one6_at.
Qed.
Lemma plain6 : plain_names (entries6 "new").
Proof.
  intros cat sub n I J. vm_compute in I. intuition (try discriminate);
    match goal with H : (_, _) = (_, _) |- _ => injection H as _ <-; vm_compute in J; intuition (try discriminate); subst; vm_compute in *; intuition discriminate end.
Qed.
Example C117_accepted_case : (exists c, fst (make_validator lxml6 env0 limits1 disk6 None (ArgName (py "new"))) = Some c /\ cm_default c = Some (set6 "new"))
  /\ set_entries disk6 (fs_path (set6 "new")) = Some (entries6 "new") /\ plain_names (entries6 "new") /\ one_element lxml6 (entries6 "new")
  /\ (forall t, nxdl_text (entries6 "new") t -> valid_with lxml6 (entries6 "new") t)
  /\ (forall t, nxdl_text (entries6 "old") t -> valid_with lxml6 (entries6 "new") t)
  /\ ~ (forall t, nxdl_text (entries6 "old") t -> valid_with lxml6 (entries6 "old") t).
Proof.
  split; [eexists; split; vm_compute; reflexivity|]. split; [reflexivity|]. split; [exact plain6|]. split; [exact one6|].
  assert (V : forall n m, In n ["old"; "new"; "older"] -> m = "new" -> forall t, nxdl_text (entries6 n) t -> valid_with lxml6 (entries6 m) t).
  { intros n m I -> t T. rewrite (texts6 n t I T). destruct (String.eqb n "older"); (eexists; split; vm_compute; reflexivity). }
  split; [apply (V "new" "new"); simpl; auto|]. split; [apply (V "old" "new"); simpl; auto|].
  intros X. destruct (X (py "choice")) as (root & R & W).
  - exists (py "base_classes"), (py "NXa"). split; [left; reflexivity|]. split; [vm_compute; intuition discriminate|vm_compute; reflexivity].
  - vm_compute in R. injection R as <-. vm_compute in W. discriminate.
Qed.
