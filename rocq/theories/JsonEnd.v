(** * Reading what is written, whole or cut off *)

From Coq Require Import List NArith ZArith Bool String Lia.
From Verif Require Import PyBase PyFacts Json JsonFacts.
Import ListNotations.
Open Scope string_scope.
Open Scope list_scope.
Local Open Scope N_scope.

Definition chars (s : pystr) : Prop := Forall (fun c => c < 1114112) s.
Definition sep : pystr := [44; 10; 32; 32].

(** what follows the first pair *)
Definition tail_of (d : dict pystr) (rest : pystr) : pystr :=
  match d with [] => 10 :: 125 :: rest | _ => 44 :: 10 :: 32 :: 32 :: join sep (map json_pair d) ++ 10 :: 125 :: rest end.

Lemma pair_text : forall k v t, json_pair (k, v) ++ t = 34 :: flat_map json_char k ++ 34 :: 58 :: 32 :: 34 :: flat_map json_char v ++ 34 :: t.
Proof. intros k v t. unfold json_pair, json_str. cbn [fst snd]. rewrite <- !app_assoc. reflexivity. Qed.

Lemma pairs_text : forall kv d rest, join sep (map json_pair (kv :: d)) ++ 10 :: 125 :: rest = json_pair kv ++ tail_of d rest.
Proof.
  intros kv d rest. destruct d as [|kv2 d]; [reflexivity|]. cbn [map join tail_of]. fold (map json_pair d).
  change (match map json_pair d with [] => json_pair kv2 | _ :: _ => json_pair kv2 ++ sep ++ join sep (map json_pair d) end) with (join sep (map json_pair (kv2 :: d))).
  rewrite <- !app_assoc. reflexivity.
Qed.

Lemma dumps_text : forall kv d, dumps (kv :: d) = 123 :: 10 :: 32 :: 32 :: join sep (map json_pair (kv :: d)) ++ [10; 125].
Proof. reflexivity. Qed.

(** ** Whole *)
Definition put_texts (acc : dict json) (d : dict pystr) : dict json := fold_left (fun a kv => dset (fst kv) (JStr (snd kv)) a) d acc.

Lemma value_str : forall f t, scan_value (S f) (34 :: t) = (dor st <- scan_str t ; Ok (JStr (fst st), snd st)).
Proof. reflexivity. Qed.

Definition writable (s : pystr) : Prop := chars s /\ unpaired s.

Lemma members_eq : forall value f acc t, members value (S f) acc (34 :: t) =
  (dor kt <- scan_str t ;
   match eat 58 (skip_space (snd kt)) with
   | None => Exn ValueError
   | Some t2 =>
       dor vt <- value (skip_space t2) ;
       let d' := dset (fst kt) (fst vt) acc in
       let r := skip_space (snd vt) in
       match eat 125 r, eat 44 r with
       | Some t4, _ => Ok (JObj d', t4)
       | None, Some t4 => members value f d' (skip_space t4)
       | None, None => Exn ValueError
       end
   end).
Proof. reflexivity. Qed.

Lemma pair_whole : forall f fuel acc k v R, writable k -> writable v ->
  members (scan_value (S f)) (S fuel) acc (json_pair (k, v) ++ R) =
  let r := skip_space R in
  match eat 125 r, eat 44 r with
  | Some t4, _ => Ok (JObj (dset k (JStr v) acc), t4)
  | None, Some t4 => members (scan_value (S f)) fuel (dset k (JStr v) acc) (skip_space t4)
  | None, None => Exn ValueError
  end.
Proof.
  intros f fuel acc k v R [K1 K2] [V1 V2]. rewrite pair_text, members_eq, (scan_written k _ K1 K2).
  assert (SV : scan_str (flat_map json_char v ++ 34 :: R) = Ok (v, R)) by (apply scan_written; assumption).
  revert SV. generalize (flat_map json_char v ++ 34 :: R). intros t SV. cbn [rbind fst snd].
  change (eat 58 (skip_space (58 :: 32 :: 34 :: t))) with (Some (32 :: 34 :: t)). cbv iota beta.
  change (skip_space (32 :: 34 :: t)) with (34 :: t). rewrite value_str, SV. reflexivity.
Qed.

Lemma members_written : forall f d kv fuel acc rest, (List.length d < fuel)%nat ->
  Forall (fun kv => writable (fst kv) /\ writable (snd kv)) (kv :: d) ->
  members (scan_value (S f)) fuel acc (join sep (map json_pair (kv :: d)) ++ 10 :: 125 :: rest) = Ok (JObj (put_texts acc (kv :: d)), rest).
Proof.
  induction d as [|kv2 d IH]; intros [k v] fuel acc rest L F; (destruct fuel as [|fuel]; [inversion L|]);
    inversion F as [|? ? [WK WV] F']; subst; cbn [fst snd] in *; rewrite pairs_text, (pair_whole _ _ _ _ _ _ WK WV).
  - reflexivity.
  - cbv zeta. change (skip_space (tail_of (kv2 :: d) rest)) with (tail_of (kv2 :: d) rest).
    change (eat 125 (tail_of (kv2 :: d) rest)) with (@None pystr).
    change (eat 44 (tail_of (kv2 :: d) rest)) with (Some (10 :: 32 :: 32 :: join sep (map json_pair (kv2 :: d)) ++ 10 :: 125 :: rest)).
    cbv iota beta.
    replace (skip_space (10 :: 32 :: 32 :: join sep (map json_pair (kv2 :: d)) ++ 10 :: 125 :: rest)) with (join sep (map json_pair (kv2 :: d)) ++ 10 :: 125 :: rest).
    + rewrite IH; [reflexivity | cbn [List.length] in L; lia | exact F'].
    + rewrite pairs_text. destruct kv2 as [k2 v2]. rewrite pair_text. reflexivity.
Qed.

Lemma loads_written : forall kv d, Forall (fun kv => writable (fst kv) /\ writable (snd kv)) (kv :: d) -> loads (dumps (kv :: d)) = Ok (JObj (put_texts [] (kv :: d))).
Proof.
  intros kv d F. rewrite dumps_text. unfold loads.
  set (t := join sep (map json_pair (kv :: d)) ++ [10; 125]).
  change (eat 65279 (123 :: 10 :: 32 :: 32 :: t)) with (@None pystr). cbv iota zeta.
  change (skip_space (123 :: 10 :: 32 :: 32 :: t)) with (123 :: 10 :: 32 :: 32 :: t).
  assert (T : exists t', t = 34 :: t') by (subst t; destruct kv as [k v]; rewrite (pairs_text (k, v) d []), pair_text; eexists; reflexivity).
  assert (V : scan_value (S (List.length (123 :: 10 :: 32 :: 32 :: t))) (123 :: 10 :: 32 :: 32 :: t)
              = members (scan_value (S (List.length (10 :: 32 :: 32 :: t)))) (S (List.length (10 :: 32 :: 32 :: t))) [] t).
  { destruct T as (t' & T). rewrite T. reflexivity. }
  rewrite V. subst t. rewrite members_written; [reflexivity| |exact F].
  cbn [List.length]. rewrite app_length. cut (List.length d <= List.length (join sep (map json_pair (kv :: d))))%nat; [lia|].
  clear. revert kv. induction d as [|kv2 d IH]; intros kv; [cbn [List.length]; lia|].
  change (join sep (map json_pair (kv :: kv2 :: d))) with (json_pair kv ++ sep ++ join sep (map json_pair (kv2 :: d))).
  rewrite !app_length. specialize (IH kv2). cbn [List.length sep]. lia.
Qed.

(** ** Cut off *)
Lemma value_open : forall f q V rest, body V -> V = q ++ rest -> scan_value (S f) (34 :: q) = Exn ValueError.
Proof. intros f q V rest B E. rewrite value_str, (scan_open _ q V rest (le_n _) B E). reflexivity. Qed.

(** the first pair of an object, cut off somewhere *)
Lemma pair_open : forall f fuel acc k v R p rest, chars k -> chars v -> json_pair (k, v) ++ R = p ++ rest ->
  members (scan_value (S f)) (S fuel) acc p = Exn ValueError
  \/ exists q acc', R = q ++ rest /\ (List.length q < List.length p)%nat
       /\ members (scan_value (S f)) (S fuel) acc p =
          let r := skip_space q in
          match eat 125 r, eat 44 r with
          | Some t4, _ => Ok (JObj acc', t4)
          | None, Some t4 => members (scan_value (S f)) fuel acc' (skip_space t4)
          | None, None => Exn ValueError
          end.
Proof.
  intros f fuel acc k v R p rest K V E. rewrite pair_text in E. pose proof (json_chars_body k K) as BK. pose proof (json_chars_body v V) as BV.
  revert E BK BV. generalize (flat_map json_char k) (flat_map json_char v). intros tk tv E BK BV. clear K V.
  destruct p as [|x p]; [left; reflexivity|]. cbn [app] in E. injection E as <- E.
  rewrite members_eq. destruct (prefix_app _ _ _ _ E) as [(l & _ & W) | (p1 & -> & E1)].
  { left. rewrite (scan_open _ p tk l (le_n _) BK W). reflexivity. }
  clear E. destruct p1 as [|x p1].
  { left. rewrite app_nil_r. rewrite (scan_open _ tk tk [] (le_n _) BK); [reflexivity | symmetry; apply app_nil_r]. }
  cbn [app] in E1. injection E1 as <- E1. destruct (scan_closed _ tk p1 (le_n _) BK) as (s & ->). cbn [rbind fst snd].
  destruct p1 as [|x p1]; [left; reflexivity|]. cbn [app] in E1. injection E1 as <- E1.
  change (eat 58 (skip_space (58 :: p1))) with (Some p1). cbv iota.
  destruct p1 as [|x p1]; [left; reflexivity|]. cbn [app] in E1. injection E1 as <- E1.
  change (skip_space (32 :: p1)) with (skip_space p1).
  destruct p1 as [|x p1]; [left; reflexivity|]. cbn [app] in E1. injection E1 as <- E1.
  change (skip_space (34 :: p1)) with (34 :: p1).
  destruct (prefix_app _ _ _ _ E1) as [(l & _ & W) | (p2 & -> & E2)].
  { left. rewrite (value_open _ p1 tv l BV W). reflexivity. }
  clear E1. destruct p2 as [|x p2].
  { left. rewrite app_nil_r. rewrite (value_open _ tv tv [] BV); [reflexivity | symmetry; apply app_nil_r]. }
  cbn [app] in E2. injection E2 as <- E2. rewrite value_str. destruct (scan_closed _ tv p2 (le_n _) BV) as (s2 & ->). cbn [rbind fst snd].
  right. exists p2. eexists. split; [exact E2|]. split; [cbn [List.length]; rewrite !app_length; cbn [List.length]; rewrite app_length; cbn [List.length]; lia | reflexivity].
Qed.

Lemma members_none : forall value fuel acc, members value (S fuel) acc [] = Exn ValueError.
Proof. reflexivity. Qed.

(** the members of an object, cut off somewhere *)
Lemma members_open : forall f d kv fuel acc p rest, (List.length p < fuel)%nat ->
  Forall (fun kv => chars (fst kv) /\ chars (snd kv)) (kv :: d) -> rest <> [] ->
  join sep (map json_pair (kv :: d)) ++ [10; 125] = p ++ rest -> members (scan_value (S f)) fuel acc p = Exn ValueError.
Proof.
  induction d as [|kv2 d IH]; intros [k v] fuel acc p rest L F NR E.
  - destruct fuel as [|fuel]; [inversion L|]. rewrite (pairs_text (k, v) [] []) in E. inversion F as [|? ? [K V] _]; subst. cbn [fst snd] in *.
    destruct (pair_open f fuel acc k v _ p rest K V E) as [H | (q & acc' & R & Lq & ->)]; [exact H|].
    cbn [tail_of] in R. destruct q as [|x q]; [reflexivity|]. cbn [app] in R. injection R as <- R. destruct q as [|x q]; [reflexivity|].
    cbn [app] in R. injection R as <- R. destruct q; [|discriminate R]. cbn [app] in R. congruence.
  - destruct fuel as [|fuel]; [inversion L|]. rewrite (pairs_text (k, v) (kv2 :: d) []) in E. inversion F as [|? ? [K V] F']; subst. cbn [fst snd] in *.
    destruct (pair_open f fuel acc k v _ p rest K V E) as [H | (q & acc' & R & Lq & ->)]; [exact H|].
    change (tail_of (kv2 :: d) []) with (44 :: 10 :: 32 :: 32 :: join sep (map json_pair (kv2 :: d)) ++ [10; 125]) in R.
    pose proof (fun fuel acc p => IH kv2 fuel acc p rest) as IH2. clear IH.
    assert (T : exists J, join sep (map json_pair (kv2 :: d)) ++ [10; 125] = 34 :: J).
    { destruct kv2 as [k2 v2]. rewrite (pairs_text (k2, v2) d []), pair_text. eexists; reflexivity. }
    revert R T IH2. generalize (join sep (map json_pair (kv2 :: d)) ++ [10; 125]). intros t R T IH2.
    destruct q as [|x q]; [reflexivity|]. cbn [app] in R. injection R as <- R.
    cbv zeta. change (skip_space (44 :: q)) with (44 :: q). change (eat 125 (44 :: q)) with (@None pystr). change (eat 44 (44 :: q)) with (Some q). cbv iota beta zeta.
    destruct fuel as [|fuel]; [cbn [List.length] in *; lia|].
    destruct q as [|x q]; [reflexivity|]. cbn [app] in R. injection R as <- R.
    destruct q as [|x q]; [reflexivity|]. cbn [app] in R. injection R as <- R.
    destruct q as [|x q]; [reflexivity|]. cbn [app] in R. injection R as <- R.
    change (skip_space (10 :: 32 :: 32 :: q)) with (skip_space q).
    assert (S1 : skip_space q = q).
    { destruct q as [|y q]; [reflexivity|]. destruct T as (J & T). rewrite T in R. cbn [app] in R. injection R as <- _. reflexivity. }
    rewrite S1. apply (IH2 (S fuel) acc' q); auto. cbn [List.length] in *. lia.
Qed.

Lemma loads_open : forall kv d p rest, Forall (fun kv => chars (fst kv) /\ chars (snd kv)) (kv :: d) -> rest <> [] -> dumps (kv :: d) = p ++ rest ->
  loads p = Exn ValueError.
Proof.
  intros kv d p rest F NR E. rewrite dumps_text in E.
  pose proof (fun f fuel acc p => members_open f d kv fuel acc p rest) as MO.
  assert (T0 : exists J, join sep (map json_pair (kv :: d)) ++ [10; 125] = 34 :: J).
  { destruct kv as [k v]. rewrite (pairs_text (k, v) d []), pair_text. eexists; reflexivity. }
  revert E T0 MO. generalize (join sep (map json_pair (kv :: d)) ++ [10; 125]). intros t E T0 MO.
  destruct p as [|x p]; [reflexivity|]. cbn [app] in E. injection E as <- E.
  destruct p as [|x p]; [reflexivity|]. cbn [app] in E. injection E as <- E.
  destruct p as [|x p]; [reflexivity|]. cbn [app] in E. injection E as <- E.
  destruct p as [|x p]; [reflexivity|]. cbn [app] in E. injection E as <- E.
  unfold loads. change (eat 65279 (123 :: 10 :: 32 :: 32 :: p)) with (@None pystr). cbv iota zeta.
  change (skip_space (123 :: 10 :: 32 :: 32 :: p)) with (123 :: 10 :: 32 :: 32 :: p).
  assert (T : p = [] \/ exists t', p = 34 :: t').
  { destruct p as [|y p]; [auto|]. destruct T0 as (J & T0). rewrite T0 in E. cbn [app] in E. injection E as <- _. eauto. }
  assert (V : scan_value (S (List.length (123 :: 10 :: 32 :: 32 :: p))) (123 :: 10 :: 32 :: 32 :: p)
              = members (scan_value (S (List.length (10 :: 32 :: 32 :: p)))) (S (List.length (10 :: 32 :: 32 :: p))) [] p).
  { destruct T as [-> | (t' & ->)]; reflexivity. }
  rewrite V, MO; auto. cbn [List.length]. lia.
Qed.
