(** * Theorems about text values and isNeXusFile (C63-C65) *)

From Coq Require Import List NArith ZArith Bool String Lia.
From Verif Require Import PyBase Utf8 H5 Findings Core Validate Samples Spec_Run Spec_Catalog Spec_Values CatalogSamples ValueFacts NameSamples InfoFacts.
Import ListNotations.

(** ** C63: decode_byte_string *)
Theorem C63_idempotent : forall E v v', decode_byte_string E v = Ok v' -> decode_byte_string E v' = Ok v'.
Proof. exact decode_idempotent. Qed.
Print Assumptions C63_idempotent.

Theorem C63_unchanged : forall E v, ~ needs_decoding v -> decode_byte_string E v = Ok v.
Proof. exact decode_unchanged. Qed.
Print Assumptions C63_unchanged.

(** nothing is left to decode in the result *)
Theorem C63_decoded : forall E v v', decode_byte_string E v = Ok v' -> ~ needs_decoding v'.
Proof. exact decode_decoded. Qed.
Print Assumptions C63_decoded.

(** the only failure: bytes that are no text *)
Theorem C63_fails : forall E v e, decode_byte_string E v = Exn e ->
  e = UnicodeDecodeError /\ ((exists b, v = VBytes b) \/ exists l b, v = VArrS l /\ In b l /\ ~ ascii_text b).
Proof. exact decode_fails. Qed.
Print Assumptions C63_fails.

Example C63_cases : decode_byte_string env0 (VBytes [195%N; 169%N]) = Ok (VStr [233%N])
  /\ decode_byte_string env0 (VArrS [py "x"; py "y"]) = Ok (VList [py "x"; py "y"])
  /\ decode_byte_string env0 (VArrS []) = Ok VNone
  /\ ~ needs_decoding (VList [py "x"]) /\ decode_byte_string env0 (VBytes [255%N]) = Exn UnicodeDecodeError.
Proof. split; [reflexivity|]. split; [reflexivity|]. split; [reflexivity|]. split; [|reflexivity]. intros [[b H]|[[l H]|[l H]]]; discriminate. Qed.

(** ** C64: string_list_to_hdf5 and back *)
(** text is written as UTF-8 and read back in the encoding of stdout: with another
    encoding it comes back changed, or not at all *)
Definition env_ascii : env := mkEnv (fun _ => false) (fun _ => false) (fun _ => None) (fun c => N.eqb c 160) EncAscii.
Definition env_latin1 : env := mkEnv (fun _ => false) (fun _ => false) (fun _ => None) (fun c => N.eqb c 160) EncLatin1.

Theorem C64_refuted : exists s, unicode s
  /\ (exists b, string_list_to_hdf5 [s] = Ok [b] /\ decode_byte_string env_latin1 b = Ok (VStr [195%N; 169%N]) /\ s <> [195%N; 169%N])
  /\ (exists b, string_list_to_hdf5 [s] = Ok [b] /\ decode_byte_string env_ascii b = Exn UnicodeDecodeError).
Proof.
  exists [233%N]. split; [repeat constructor; left; reflexivity|]. split; exists (VBytes [195%N; 169%N]); (split; [reflexivity|]).
  - split; [reflexivity|discriminate].
  - reflexivity.
Qed.
Print Assumptions C64_refuted.

(** an array attribute made from the list is not read back in any encoding *)
Theorem C64_array_refuted : exists s b, unicode s /\ string_list_to_hdf5 [s] = Ok [VBytes b]
  /\ forall E, decode_byte_string E (VArrS [b]) = Exn UnicodeDecodeError.
Proof. exists [233%N], [195%N; 169%N]. split; [repeat constructor; left; reflexivity|]. split; reflexivity. Qed.
Print Assumptions C64_array_refuted.

(** what holds: all texts when stdout is UTF-8 ... *)
Theorem C64_partial : forall E l, e_enc E = EncUtf8 -> Forall unicode l ->
  exists bs, string_list_to_hdf5 l = Ok bs /\ Forall2 (fun b s => decode_byte_string E b = Ok (VStr s)) bs l.
Proof. exact write_read. Qed.
Print Assumptions C64_partial.

(** ... and ASCII text in any encoding *)
Theorem C64_ascii_partial : forall E l, Forall ascii_text l ->
  exists bs, string_list_to_hdf5 l = Ok bs /\ Forall2 (fun b s => decode_byte_string E b = Ok (VStr s)) bs l.
Proof. exact write_read_ascii. Qed.
Print Assumptions C64_ascii_partial.

(** only lone surrogates cannot be written *)
Theorem C64_writable : forall l, (exists e, string_list_to_hdf5 l = Exn e) <-> ~ Forall unicode l.
Proof. exact write_fails. Qed.
Print Assumptions C64_writable.

(** bytes that are read as a text when stdout is UTF-8 are those that the text is written
    as: no two byte strings are read as the same text, and all others are refused *)
Theorem C64_strict : forall E b, e_enc E = EncUtf8 ->
  match decode_byte_string E (VBytes b) with
  | Ok v => exists s, v = VStr s /\ unicode s /\ string_list_to_hdf5 [s] = Ok [VBytes b]
  | Exn e => e = UnicodeDecodeError /\ forall s, string_list_to_hdf5 [s] <> Ok [VBytes b]
  end.
Proof.
  intros E b HE. assert (W : forall s, string_list_to_hdf5 [s] = Ok [VBytes b] <-> utf8_encode s = Ok b).
  { intros s. unfold string_list_to_hdf5. cbn [traverse]. destruct (utf8_encode s) as [x|e]; cbn; split; intros H; try discriminate; inversion H; subst; reflexivity. }
  cbn [decode_byte_string]. rewrite HE. destruct (decode_bytes EncUtf8 b) as [s|e] eqn:D; cbn [rmap].
  - exists s. split; [reflexivity|]. pose proof D as U. apply utf8_iff in U. split; [|apply W; exact U].
    destruct (utf8_decode b) as [t|] eqn:DU; unfold decode_bytes in D; rewrite DU in D; inversion D; subst.
    apply (proj1 (decode_encode _ _ _ (le_n _) DU)).
  - split; [unfold decode_bytes in D; destruct (utf8_decode b); inversion D; reflexivity|].
    intros s H. apply W in H. apply utf8_iff in H. congruence.
Qed.
Print Assumptions C64_strict.

(** an overlong form and half a character *)
Example C64_strict_case : decode_byte_string env0 (VBytes [224; 128; 175]%N) = Exn UnicodeDecodeError
  /\ decode_byte_string env0 (VBytes [195]%N) = Exn UnicodeDecodeError /\ decode_byte_string env0 (VBytes [195; 169]%N) = Ok (VStr [233]%N).
Proof. split; [reflexivity|split; reflexivity]. Qed.

(** two, three and four bytes *)
Example C64_case : Forall unicode [[233%N]; [8364%N; 65%N]; [128512%N]] /\ e_enc env0 = EncUtf8
  /\ string_list_to_hdf5 [[8364%N; 65%N]; [128512%N]] = Ok [VBytes [226; 130; 172; 65]%N; VBytes [240; 159; 152; 128]%N].
Proof.
  split; [repeat constructor; vm_compute; first [left; reflexivity|right; split; reflexivity]|]. split; reflexivity.
Qed.

(** ** C65: isNeXusFile and validate() *)
(** an NX_class stored as an array of one string: isNeXusFile says yes, validate()
    sees no NeXus group *)
Definition array_class_file : h5file := [grp [("entry", 1)] []; grp [] [("NX_class", VArrO [py "NXentry"])]].

Theorem C65_refuted : exists f v', plain_file f /\ validate setup0 (world_of f) (new_validator classes0) fn = (v', Ok tt)
  /\ isNeXusFile env0 (world_of f) fn = Ok (Some true) /\ ~ has_entry (world_of f) f v'.
Proof.
  exists array_class_file, (done array_class_file). split; [apply plainb_ok; vm_compute; reflexivity|]. split; [vm_compute; reflexivity|].
  split; [vm_compute; reflexivity|]. intros [n [i [it [h [H1 [[H2 _] [H3 [H4 [H5 H6]]]]]]]]].
  assert (X : Forall (fun x => it_cp x <> py "/NXentry") (st_items (v_st (done array_class_file)))).
  { apply Forall_forall. intros x Hx. vm_compute in Hx. repeat (destruct Hx as [Hx|Hx]; [subst x; discriminate|]). destruct Hx. }
  rewrite Forall_forall in X. apply (X it); auto. eapply nth_error_In; eauto.
Qed.
Print Assumptions C65_refuted.

(** with scalar NX_class attributes the two agree, for files without external links *)
Theorem C65_partial : forall u w v fname v' f, dget fname w = Some (FHdf5 f) -> validate u w v fname = (v', Ok tt) -> plain_file f ->
  scalar_classes f -> exists b, isNeXusFile (u_env u) w fname = Ok (Some b) /\ (b = true <-> has_entry w f v').
Proof. exact nexus_file. Qed.
Print Assumptions C65_partial.

Example C65_case : plain_file good_file /\ scalar_classes good_file
  /\ validate setup0 (world_of good_file) (new_validator classes0) fn = (done good_file, Ok tt)
  /\ isNeXusFile env0 (world_of good_file) fn = Ok (Some true).
Proof.
  split; [apply plainb_ok; vm_compute; reflexivity|]. split; [|split; vm_compute; reflexivity].
  intros n o v _ H.
  do 9 (destruct o as [|o]; [vm_compute in H; first [discriminate H|inversion H; subst v; split; [|split]; intros; discriminate]|]).
  destruct o; discriminate H.
Qed.
