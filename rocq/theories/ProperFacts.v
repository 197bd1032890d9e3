(** * When an NXDL file set can be loaded *)

From Coq Require Import List NArith ZArith Bool String Lia.
From Verif Require Import PyBase PyFacts Nxdl NxdlLoad Spec_Nxdl NxdlFacts Spec_Proper.
Import ListNotations.

(** [m] succeeds, with all defaults there, exactly if [P]; otherwise it raises KeyError *)
Definition decides {A} (P : Prop) (m : LM A) : Prop := forall d,
  (forall e, snd (m d) = Exn e -> e = KeyError)
  /\ (all_defaults d -> all_defaults (fst (m d)) /\ ((exists a, snd (m d) = Ok a) <-> P)).

Lemma dec_iff : forall A (P Q : Prop) (m : LM A), (P <-> Q) -> decides P m -> decides Q m.
Proof. intros A P Q m H D d. destruct (D d) as [D1 D2]. split; [exact D1|]. intros C. destruct (D2 C) as [C' X]. split; [exact C'|]. tauto. Qed.
Lemma dec_ret : forall A (a : A), decides True (lret a).
Proof. intros A a d. split; [discriminate|]. intros C. split; [exact C|]. split; [auto|]. intros _. exists a. reflexivity. Qed.
Lemma dec_bind : forall A B (P Q : Prop) (m : LM A) (f : A -> LM B), decides P m -> (forall a, decides Q (f a)) -> decides (P /\ Q) (lbind m f).
Proof.
  intros A B P Q m f H K d. destruct (H d) as [H1 H2]. unfold lbind. destruct (m d) as [d' [a|e]]; cbn [fst snd] in *.
  - destruct (K a d') as [K1 K2]. split; [exact K1|]. intros C. destruct (H2 C) as [C' X]. destruct (K2 C') as [C2 Y]. split; [exact C2|].
    rewrite Y. split; [intros q; split; [apply X; exists a; reflexivity|exact q]|intros [_ q]; exact q].
  - split; [intros e0 E0; apply H1; congruence|]. intros C. destruct (H2 C) as [C' X]. split; [exact C'|]. split; [intros [b Z]; discriminate Z|]. intros [p _]. apply X in p as [a Z]. discriminate Z.
Qed.
Lemma dec_lift_get : forall k (dct : dict pystr), decides (exists s, dget k dct = Some s) (llift (dgetitem k dct)).
Proof.
  intros k dct d. unfold llift, dgetitem. cbn [fst snd]. destruct (dget k dct) as [s|]; (split; [intros e E; congruence|]); intros C; (split; [exact C|]).
  - split; [intros _; exists s; reflexivity|intros _; exists s; reflexivity].
  - split; [intros [a X]; discriminate X|intros [a X]; discriminate X].
Qed.
Lemma dec_unique : forall names n, decides True (llift (ensure_unique_name names n)).
Proof.
  intros names n d. unfold llift. cbn [fst snd]. destruct (ensure_unique_ok names n) as (x & -> & _). split; [discriminate|]. intros C. split; [exact C|].
  split; [auto|]. intros _. exists x. reflexivity.
Qed.
Lemma dec_app_attr : forall cat, decides True (app_attr cat).
Proof.
  intros cat d. unfold app_attr. destruct (str_eqb cat (py "applications")); [|split; [discriminate|]; intros C; split; [exact C|split; [auto|intros _; exists tt; reflexivity]]].
  destruct (df_attr_optional d) eqn:E; cbn [fst snd].
  - split; [discriminate|]. intros (C1 & C2 & C3 & C4 & C5). split; [repeat split; cbn; auto; discriminate|]. split; [auto|intros _; exists tt; reflexivity].
  - split; [intros e Z; congruence|]. intros (C1 & _). congruence.
Qed.
Lemma dec_app_field : forall cat, decides True (app_field cat).
Proof.
  intros cat d. unfold app_field. destruct (str_eqb cat (py "applications")); [|split; [discriminate|]; intros C; split; [exact C|split; [auto|intros _; exists tt; reflexivity]]].
  destruct (df_field_minOccurs d) eqn:E; cbn [fst snd].
  - split; [discriminate|]. intros (C1 & C2 & C3 & C4 & C5). split; [repeat split; cbn; auto; discriminate|]. split; [auto|intros _; exists tt; reflexivity].
  - split; [intros e Z; congruence|]. intros (_ & C1 & _). congruence.
Qed.
Lemma dec_app_group : forall cat, decides True (app_group cat).
Proof.
  intros cat d. unfold app_group. destruct (str_eqb cat (py "applications")); [|split; [discriminate|]; intros C; split; [exact C|split; [auto|intros _; exists tt; reflexivity]]].
  destruct (df_group_minOccurs d) eqn:E; cbn [fst snd].
  - split; [discriminate|]. intros (C1 & C2 & C3 & C4 & C5). split; [repeat split; cbn; auto; discriminate|]. split; [auto|intros _; exists tt; reflexivity].
  - split; [intros e Z; congruence|]. intros (_ & _ & C1 & _). congruence.
Qed.

(** ** Attributes *)
Definition attributes_from (acc : dict nxattr) (nodes : list xnode) : Prop :=
  (forall k, In k nodes -> has_text (py "name") k) /\ NoDup (map element_name nodes) /\ forall k, In k nodes -> ~ In (element_name k) (map fst acc).

Lemma attributes_next : forall acc n rest s a, dget (py "name") (x_attrib n) = Some s -> dmem s acc = false ->
  (attributes_from (dset s a acc) rest <-> attributes_from acc (n :: rest)).
Proof.
  intros acc n rest s a E M. assert (EN : element_name n = s) by (unfold element_name, attr_text; rewrite E; reflexivity).
  assert (NI : ~ In s (map fst acc)). { intros I. apply dmem_In in I. congruence. }
  unfold attributes_from. rewrite dset_new by exact NI. rewrite map_app. cbn [map fst]. rewrite EN.
  split; intros (A & B & C).
  - split; [intros k [<-|I]; [exists s; exact E|apply A; exact I]|]. split.
    + constructor; [|exact B]. intros I. apply in_map_iff in I as (k & K1 & K2). apply (C k K2). rewrite K1. apply in_or_app. right. left. reflexivity.
    + intros k [<-|I]; [rewrite EN; exact NI|]. intros X. apply (C k I). apply in_or_app. left. exact X.
  - inversion B as [|? ? B1 B2]; subst. split; [intros k I; apply A; right; exact I|]. split; [exact B2|].
    intros k I X. apply in_app_or in X as [X|[X|[]]]; [apply (C k (or_intror I)); exact X|]. apply B1. rewrite X. apply in_map. exact I.
Qed.

Lemma dec_attributes : forall cat nodes acc, decides (attributes_from acc nodes) (parse_attributes cat acc nodes).
Proof.
  intros cat nodes. induction nodes as [|n rest IH]; intros acc; cbn [parse_attributes].
  - eapply dec_iff; [|apply dec_ret]. split; [intros _|auto]. split; [intros k []|]. split; [constructor|intros k []].
  - unfold parse_attribute, dgetitem. destruct (dget (py "name") (x_attrib n)) as [s|] eqn:E; cbn [rbind].
    + match goal with |- decides _ (lbind (llift (Ok ?a)) ?f) => change (lbind (llift (Ok a)) f) with (f a); cbv beta; set (x := a) end.
      eapply dec_iff; [|eapply dec_bind with (P := True) (Q := attributes_from acc (n :: rest)); [apply dec_app_attr|]]; [tauto|].
      intros _u. change (na_name x) with s. destruct (dmem s acc) eqn:M.
      * intros d. cbn [lraise fst snd]. split; [intros e X; congruence|]. intros C. split; [exact C|]. split; [intros [a X]; discriminate X|].
        intros (_ & _ & X). exfalso. apply (X n (or_introl eq_refl)). unfold element_name, attr_text. rewrite E. apply dmem_In. exact M.
      * eapply dec_iff; [apply (attributes_next acc n rest s x E M)|apply IH].
    + intros d. cbn [lbind llift fst snd]. unfold lbind, llift. cbn [fst snd]. split; [intros e X; congruence|]. intros C. split; [exact C|].
      split; [intros [a X]; discriminate X|]. intros (X & _). destruct (X n (or_introl eq_refl)) as [s Z]. congruence.
Qed.
Lemma dec_own_attributes : forall cat n, decides (proper_attributes n) (parse_attributes cat [] (elements (py "attribute") n)).
Proof. intros cat n. eapply dec_iff; [|apply dec_attributes]. unfold attributes_from, proper_attributes. cbn. firstorder. Qed.

(** ** Fields and links *)
Lemma dec_dims : forall l acc d, all_defaults d -> fst (parse_dims acc l d) = d /\ exists r, snd (parse_dims acc l d) = Ok r.
Proof.
  induction l as [|n l IH]; intros acc d C; cbn [parse_dims]; [split; [reflexivity|eexists; reflexivity]|].
  destruct C as (C1 & C2 & C3 & C4 & C5). rewrite C5. apply IH. repeat split; auto.
Qed.
Lemma dims_error : forall l acc d e, snd (parse_dims acc l d) = Exn e -> e = KeyError.
Proof. induction l as [|n l IH]; intros acc d e H; cbn [parse_dims] in H; [discriminate H|]. destruct (df_dim d); [eapply IH; exact H|]. cbn in H. congruence. Qed.
Lemma dec_dimensions : forall n, decides True (parse_dimensions n).
Proof.
  intros n d. unfold parse_dimensions, lbind, lret. destruct (df_dimensions d) eqn:D.
  - pose proof (dims_error (kids_named (py "dim") n) [] d) as X. pose proof (dec_dims (kids_named (py "dim") n) [] d) as Y.
    destruct (parse_dims [] (kids_named (py "dim") n) d) as [d' [r|e]]; cbn [fst snd] in *; (split; [intros e' Z; first [discriminate Z|injection Z as <-; apply X; reflexivity]|]); intros C; destruct (Y C) as [-> [r' Z]]; [|discriminate Z].
    split; [exact C|]. split; [auto|]. intros _. eexists. reflexivity.
  - cbn [fst snd]. split; [intros e Z; congruence|]. intros (_ & _ & _ & C & _). congruence.
Qed.
Lemma dec_field : forall cat n, decides (proper_field n) (parse_field cat n).
Proof.
  intros cat n. unfold parse_field. eapply dec_iff; [|eapply dec_bind; [apply dec_lift_get|intros name; eapply dec_bind; [apply (dec_own_attributes cat n)|intros attrs; eapply dec_bind with (P := True) (Q := True)]]].
  - unfold proper_field, has_text. tauto.
  - destruct (kids_named (py "dimensions") n) as [|k [|k2 l]]; [apply dec_ret| |apply dec_ret].
    eapply dec_iff; [|eapply dec_bind; [apply dec_dimensions|intros x; apply dec_ret]]. tauto.
  - intros dims. apply dec_ret.
Qed.
Lemma dec_fields : forall cat groups nodes acc, decides (forall k, In k nodes -> proper_field k) (parse_fields cat groups acc nodes).
Proof.
  intros cat groups nodes. induction nodes as [|n rest IH]; intros acc; cbn [parse_fields].
  - eapply dec_iff; [|apply dec_ret]. split; [intros _ k []|auto].
  - eapply dec_iff; [|eapply dec_bind; [apply dec_field|intros f; eapply dec_bind; [apply dec_app_field|intros u; eapply dec_bind; [apply dec_unique|intros nm; apply IH]]]].
    split; [intros (A & _ & _ & B) k [<-|I]; auto|]. intros H. split; [apply H; left; reflexivity|]. split; [exact I|]. split; [exact I|]. intros k K. apply H. right. exact K.
Qed.
Lemma dec_links : forall others nodes acc, decides (forall k, In k nodes -> has_text (py "name") k) (parse_links others acc nodes).
Proof.
  intros others nodes. induction nodes as [|n rest IH]; intros acc; cbn [parse_links].
  - eapply dec_iff; [|apply dec_ret]. split; [intros _ k []|auto].
  - eapply dec_iff; [|eapply dec_bind with (P := has_text (py "name") n); [|intros l; eapply dec_bind; [apply dec_unique|intros nm; apply IH]]].
    + split; [intros (A & _ & B) k [<-|I]; auto|]. intros H. split; [apply H; left; reflexivity|]. split; [exact I|]. intros k K. apply H. right. exact K.
    + unfold parse_link. intros d. pose proof (dec_lift_get (py "name") (x_attrib n) d) as [X Y]. unfold llift in *. cbn [fst snd] in *. unfold has_text.
      destruct (dgetitem (py "name") (x_attrib n)) as [s|e]; cbn [rbind]; (split; [intros e' Z; first [discriminate Z|injection Z as <-; apply X; reflexivity]|]); intros C; destruct (Y C) as [C' Z]; (split; [exact C'|]); rewrite <- Z.
      * split; intros _; eexists; reflexivity.
      * split; intros [q Q]; discriminate Q.
Qed.

(** ** Groups *)
Lemma dec_groups : forall (P : xnode -> Prop) one cat nodes, Forall (fun k => has_tag (py "group") k = true -> decides (P k) (one k)) nodes -> forall acc,
  decides (forall k, In k (filter (fun k => str_eqb (x_tag k) (py "group")) nodes) -> P k) (parse_groups_with one cat acc nodes).
Proof.
  intros P one cat nodes H. induction H as [|n rest Hn H IH]; intros acc; cbn [parse_groups_with filter].
  - eapply dec_iff; [|apply dec_ret]. split; [intros _ k []|auto].
  - fold (has_tag (py "group") n). destruct (has_tag (py "group") n) eqn:T.
    + eapply dec_iff; [|eapply dec_bind; [apply Hn; reflexivity|intros g; eapply dec_bind; [apply dec_app_group|intros u; eapply dec_bind; [apply dec_unique|intros nm; apply IH]]]].
      split; [intros (A & _ & _ & B) k [<-|I]; auto|]. intros X. split; [apply X; left; reflexivity|]. split; [exact I|]. split; [exact I|]. intros k K. apply X. right. exact K.
    + apply IH.
Qed.
Lemma content_parts : forall n, proper_content n <-> proper_attributes n /\ (forall k, In k (elements (py "group") n) -> has_text (py "type") k /\ proper_content k)
  /\ (forall k, In k (elements (py "field") n) -> proper_field k) /\ (forall k, In k (elements (py "link") n) -> has_text (py "name") k).
Proof. intros n. split; [intros [A B C D]; auto|]. intros (A & B & C & D). constructor; auto. Qed.

Lemma dec_group : forall cat n, decides (has_text (py "type") n /\ proper_content n) (parse_group cat n).
Proof.
  intros cat n. induction n as [t a kids IH] using xnode_ind'. cbn [parse_group].
  eapply dec_iff; [|eapply dec_bind; [apply dec_lift_get|intros ty; eapply dec_bind; [apply (dec_own_attributes cat (XN t a kids))|intros attrs;
     eapply dec_bind; [apply (dec_groups (fun k => has_text (py "type") k /\ proper_content k)); apply (Forall_impl _ (fun k (X : decides (has_text (py "type") k /\ proper_content k) (parse_group cat k)) (_ : has_tag (py "group") k = true) => X) IH)|intros groups;
     eapply dec_bind; [apply dec_fields|intros fields; eapply dec_bind; [apply dec_links|intros links; apply dec_ret]]]]]].
  rewrite content_parts. unfold elements, has_tag, has_text. cbn [x_kids x_attrib]. tauto.
Qed.

(** ** Files *)
Lemma definition_cases : forall valid f root d,
  (forall e, snd (parse_definition valid f root d) = Exn e -> (e = InvalidNxdlFile /\ valid root = false) \/ (e = KeyError /\ valid root = true))
  /\ (all_defaults d -> all_defaults (fst (parse_definition valid f root d)) /\ ((exists a, snd (parse_definition valid f root d) = Ok a) <-> valid root = true /\ proper_content root)).
Proof.
  intros valid f root d. unfold parse_definition. destruct (valid root) eqn:V; cbn [negb].
  - match goal with |- context [snd (?m d)] => assert (X : decides (proper_content root) m) end.
    { eapply dec_iff; [|eapply dec_bind; [apply (dec_own_attributes _ root)|intros attrs;
        eapply dec_bind; [apply (dec_groups (fun k => has_text (py "type") k /\ proper_content k)); apply Forall_forall; intros k _ _; apply dec_group|intros groups;
        eapply dec_bind; [apply dec_fields|intros fields; eapply dec_bind; [apply dec_links|intros links; apply dec_ret]]]]].
      rewrite content_parts. unfold elements, kids_named, has_tag. tauto. }
    destruct (X d) as [X1 X2]. split; [intros e E; right; split; [apply X1; exact E|reflexivity]|]. intros C. destruct (X2 C) as [C' Y]. split; [exact C'|]. rewrite Y. tauto.
  - cbn [lraise fst snd]. split; [intros e E; left; split; [congruence|reflexivity]|]. intros C. split; [exact C|]. split; [intros [a Z]; discriminate Z|intros [Z _]; discriminate Z].
Qed.

Lemma files_cases : forall valid content files acc d,
  (forall e, snd (load_files valid content acc files d) = Exn e ->
     exists f, In f files /\ ((e = OSError /\ content f = None) \/ exists root, content f = Some root /\ ((e = InvalidNxdlFile /\ valid root = false) \/ (e = KeyError /\ valid root = true /\ (proper_content root -> ~ all_defaults d)))))
  /\ (all_defaults d -> ((exists cl, snd (load_files valid content acc files d) = Ok cl) <-> forall f, In f files -> proper_file valid content f)).
Proof.
  intros valid content. induction files as [|f files IH]; intros acc d; cbn [load_files].
  - split; [discriminate|]. intros C. split; [intros _ f []|]. intros _. eexists. reflexivity.
  - destruct (content f) as [root|] eqn:CF; cycle 1.
    { cbn [lraise snd]. split; [intros e E; exists f; split; [left; reflexivity|left; split; [congruence|exact CF]]|]. intros C. split; [intros [a Z]; discriminate Z|].
      intros X. destruct (X f (or_introl eq_refl)) as (r & Z & _). congruence. }
    destruct (definition_cases valid f root d) as [D1 D2]. unfold lbind. destruct (parse_definition valid f root d) as [d' [def|e]] eqn:PD; cbn [fst snd] in *.
    + destruct (IH (dset (d_title def) def acc) d') as [I1 I2]. split.
      * intros e E. destruct (I1 e E) as (g & Ig & [Z|(r & Zr & [Z|(Z1 & Z2 & Z3)])]); exists g; (split; [right; exact Ig|]); [left; exact Z|right; exists r; split; [exact Zr|left; exact Z]|].
        right. exists r. split; [exact Zr|]. right. split; [exact Z1|]. split; [exact Z2|]. intros P C. apply (Z3 P). exact (proj1 (D2 C)).
      * intros C. destruct (D2 C) as [C' Y]. rewrite (I2 C'). split; [|intros X g Ig; apply X; right; exact Ig].
        intros X g [<-|Ig]; [|apply X; exact Ig]. exists root. split; [exact CF|]. apply Y. eexists. reflexivity.
    + split.
      * intros e' E. injection E as <-. exists f. split; [left; reflexivity|]. right. exists root. split; [exact CF|]. destruct (D1 e eq_refl) as [Z|[Z1 Z2]]; [left; exact Z|right; split; [exact Z1|]; split; [exact Z2|]].
        intros P C. destruct (D2 C) as [_ [_ Y]]. destruct (Y (conj Z2 P)) as [a Q]. discriminate Q.
      * intros C. split; [intros [a Z]; discriminate Z|]. intros X. exfalso. destruct (X f (or_introl eq_refl)) as (r & Z & Z2). assert (r = root) by congruence. subst r.
        destruct (D2 C) as [_ [_ Y]]. destruct (Y Z2) as [a Q]. discriminate Q.
Qed.

Lemma listed_files : forall ls dir l, get_NXDL_file_list ls dir = Ok l -> forall f, In f l <-> file_of_set ls dir f.
Proof.
  intros ls dir l H f. destruct (file_list_ok _ _ _ H) as (a & b & c & -> & A & B & C). rewrite !in_app_iff, (part_In _ _ _ _ f A), (part_In _ _ _ _ f B), (part_In _ _ _ _ f C).
  unfold file_of_set. cbn [In]. split.
  - intros [X|[X|X]]; eexists; (split; [|exact X]); tauto.
  - intros (cat & [<-|[<-|[<-|[]]]] & X); tauto.
Qed.

Lemma loads_iff : forall ls valid content d0 dir, all_defaults d0 ->
  (exists cl, snd (load_manager ls valid content d0 dir) = Ok cl) <-> set_directories ls dir /\ forall file, file_of_set ls dir file -> proper_file valid content file.
Proof.
  intros ls valid content d0 dir C. unfold load_manager. destruct (get_NXDL_file_list ls dir) as [files|e] eqn:F.
  - rewrite (proj2 (files_cases valid content files [] d0) C). pose proof (listed_files _ _ _ F) as L.
    assert (SD : set_directories ls dir).
    { split; [intros N; unfold get_NXDL_file_list in F; rewrite N in F; discriminate F|]. intros cat I. destruct (file_list_ok _ _ _ F) as (a & b & c & _ & A & B & D).
      destruct I as [<-|[<-|[<-|[]]]]; [destruct A as (n & ? & X & _)|destruct B as (n & ? & X & _)|destruct D as (n & ? & X & _)]; exists n; exact X. }
    split; [intros X; split; [exact SD|]; intros f If; apply X; apply L; exact If|intros [_ X] f If; apply X; apply L; exact If].
  - cbn [snd]. split; [intros [a Z]; discriminate Z|]. intros [[S1 S2] _]. destruct (file_list_total ls dir S1 S2) as [l Z]. congruence.
Qed.

Lemma load_errors : forall ls valid content d0 dir e, snd (load_manager ls valid content d0 dir) = Exn e ->
  (e = FileNotFound /\ ls dir = None)
  \/ (e = OSError /\ ls dir <> None /\ exists cat, In cat [py "base_classes"; py "applications"; py "contributed_definitions"] /\ no_directory ls (path_join dir cat))
  \/ exists file, file_of_set ls dir file /\
       ((e = OSError /\ content file = None) \/ exists root, content file = Some root /\
         ((e = InvalidNxdlFile /\ valid root = false) \/ (e = KeyError /\ valid root = true /\ (~ proper_content root \/ ~ all_defaults d0)))).
Proof.
  intros ls valid content d0 dir e H. unfold load_manager in H. destruct (get_NXDL_file_list ls dir) as [files|e'] eqn:F.
  - right. right. destruct (proj1 (files_cases valid content files [] d0) e H) as (f & If & Z). exists f. split; [apply (listed_files _ _ _ F); exact If|].
    destruct Z as [Z|(r & Zr & [Z|(Z1 & Z2 & Z3)])]; [left; exact Z|right; exists r; split; [exact Zr|left; exact Z]|right; exists r; split; [exact Zr|right; split; [exact Z1|split; [exact Z2|]]]].
    assert (X : all_defaults d0 \/ ~ all_defaults d0).
    { unfold all_defaults. destruct (df_attr_optional d0), (df_field_minOccurs d0), (df_group_minOccurs d0), (df_dimensions d0), (df_dim d0); try (right; intuition congruence). left. intuition congruence. }
    destruct X as [X|X]; [left; intros P; exact (Z3 P X)|right; exact X].
  - cbn [snd] in H. injection H as ->. destruct (file_list_fail _ _ _ F) as [X|X]; [left; exact X|right; left; exact X].
Qed.
