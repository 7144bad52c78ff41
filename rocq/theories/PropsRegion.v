(** C46: the regions copied by tensor_sum. *)
From Coq Require Import Reals List Bool Arith ZArith Lia Lra Psatz Floats.SpecFloat.
From Verif Require Import Base ModelNum NumProofs PropsNum ModelDrop ModelRegion.
Import ListNotations.
Open Scope list_scope.
Open Scope R_scope.

(** ** Python's round *)
Lemma py_round_near : forall x, IZR (py_round x) - 1 / 2 <= x <= IZR (py_round x) + 1 / 2.
Proof.
  intros x. destruct (base_Int_part x) as [A B]. unfold py_round.
  destruct (Rlt_dec _ _); [lra|]. destruct (Rlt_dec _ _); [rewrite plus_IZR; lra|].
  destruct (Z.even _); rewrite ?plus_IZR; lra.
Qed.
Lemma py_round_mono : forall x y, x <= y -> (py_round x <= py_round y)%Z.
Proof.
  intros x y H. destruct (Z_le_gt_dec (py_round x) (py_round y)) as [|G]; auto. exfalso.
  assert (IZR (py_round y) + 1 <= IZR (py_round x)) as Q by (rewrite <- plus_IZR; apply IZR_le; lia).
  pose proof (py_round_near x). pose proof (py_round_near y). assert (x = y) by lra. subst. lia.
Qed.
Lemma py_round_int : forall z, py_round (IZR z) = z.
Proof.
  intros z. pose proof (py_round_near (IZR z)) as [A B].
  assert (z < py_round (IZR z) + 1)%Z by (apply lt_IZR; rewrite plus_IZR; lra).
  assert (py_round (IZR z) < z + 1)%Z by (apply lt_IZR; rewrite plus_IZR; lra). lia.
Qed.

Lemma Int_part_nonneg : forall x, 0 <= x -> (0 <= Int_part x)%Z.
Proof. intros x X. destruct (base_Int_part x). assert (-1 < Int_part x)%Z by (apply lt_IZR; lra). lia. Qed.

(** [round] of [x]: within one half, so [x]'s nearest integer *)
Definition rounds_to (x : R) (z : Z) : Prop := Rabs (x - IZR z) <= 1 / 2.

Lemma rounds : forall x, rounds_to x (py_round x).
Proof. intros x. pose proof (py_round_near x). apply Rabs_le. lra. Qed.

(** the chosen region starts at fraction [o] of the tensor and wraps around after its end; [w] is its length *)
Definition position (width offset o w : R) : Prop :=
  0 <= o < 1 /\ (exists k, (if Rlt_dec width 0 then offset + width else offset) = o + IZR k) /\ w = Rmin (Rabs width) 1.

Lemma normalize : forall offset, let o := (if Rlt_dec offset 0 then 1 + offset - IZR (trunc offset) else offset) in
  0 <= o - IZR (trunc o) < 1 /\ exists k, offset = o - IZR (trunc o) + IZR k.
Proof.
  intros offset o.
  assert (0 <= o) as P.
  { unfold o. destruct (Rlt_dec offset 0); [|lra]. unfold trunc. destruct (Rle_dec 0 offset); [lra|].
    rewrite opp_IZR. destruct (base_Int_part (- offset)). lra. }
  assert (trunc o = Int_part o) as T by (unfold trunc; destruct (Rle_dec 0 o); [auto|contradiction]).
  rewrite T. destruct (base_Int_part o) as [A B]. split; [lra|].
  unfold o in *. destruct (Rlt_dec offset 0).
  - exists (Int_part (1 + offset - IZR (trunc offset)) + trunc offset - 1)%Z.
    rewrite minus_IZR, plus_IZR. lra.
  - exists (Int_part offset). lra.
Qed.

Definition region_size (n : Z) (r : Z * Z * bool) : Z := match r with (s, e, inv) => if inv then (n - (e - s))%Z else (e - s)%Z end.

Theorem C46_region_partial : forall width offset n, (0 <= n)%Z ->
  exists s e inv o w, ratio_to_region exact width offset n = (s, e, inv) /\ position width offset o w /\
    (0 <= s <= e /\ e <= n)%Z /\
    (inv = false -> o + w <= 1 /\ rounds_to (o * IZR n) s /\ rounds_to ((o + w) * IZR n) e) /\
    (inv = true -> 1 < o + w /\ rounds_to ((o + w - 1) * IZR n) s /\ rounds_to (o * IZR n) e) /\
    Rabs (IZR (region_size n (s, e, inv)) - w * IZR n) <= 1 /\
    (width = 0 -> region_size n (s, e, inv) = 0%Z) /\ (1 <= Rabs width -> region_size n (s, e, inv) = n).
Proof.
  intros width offset n N. apply IZR_le in N as N'.
  set (off := if Rlt_dec width 0 then offset + width else offset).
  set (w := Rmin (Rabs width) 1).
  destruct (normalize off) as [O (k & K)]. set (o := (if Rlt_dec off 0 then 1 + off - IZR (trunc off) else off)) in *.
  set (f := o - IZR (trunc o)) in *.
  assert (0 <= w <= 1) as W.
  { unfold w. split; [apply Rmin_glb; [apply Rabs_pos|lra]|apply Rmin_r]. }
  assert (ratio_to_region exact width offset n =
    if rleb (w + f) 1 then (py_round (f * IZR n), py_round ((w + f) * IZR n), false)
    else (py_round ((w + f - 1) * IZR n), py_round (f * IZR n), true)) as E.
  { unfold ratio_to_region. cbn [exact num of_Z ltb add opp sub fmod1 to_int mul to_round leb]. change (num exact) with R in *.
    assert ((if if Rlt_dec 1 (if (if Rlt_dec width 0 then true else false) then - width else width) then true else false then 1
             else (if (if Rlt_dec width 0 then true else false) then - width else width)) = w) as ->.
    { unfold w, Rmin. destruct (Rlt_dec width 0).
      - rewrite Rabs_left by auto. destruct (Rlt_dec 1 (- width)), (Rle_dec (- width) 1); auto; lra.
      - rewrite Rabs_right by lra. destruct (Rlt_dec 1 width), (Rle_dec width 1); auto; lra. }
    assert ((if (if Rlt_dec width 0 then true else false) then offset + width else offset) = off) as ->
      by (unfold off; destruct (Rlt_dec width 0); auto).
    assert ((if if Rlt_dec off 0 then true else false then 1 + off - IZR (trunc off) else off) = o) as ->
      by (unfold o; destruct (Rlt_dec off 0); auto).
    reflexivity. }
  assert (0 <= f * IZR n) as F0 by (apply Rmult_le_pos; lra).
  assert (f * IZR n <= IZR n) as F1 by nra.
  assert (position width offset f w) as P.
  { split; [auto|]. split; [exists k; exact K|reflexivity]. }
  assert (forall x y, x <= y -> Rabs (IZR (py_round y - py_round x) - (y - x)) <= 1) as D.
  { intros x y _. rewrite minus_IZR. pose proof (py_round_near x); pose proof (py_round_near y). apply Rabs_le. lra. }
  destruct (rleb (w + f) 1) eqn:L.
  - apply rleb_true in L. exists (py_round (f * IZR n)), (py_round ((w + f) * IZR n)), false, f, w.
    assert (f * IZR n <= (w + f) * IZR n) as M by nra.
    split; [exact E|]. split; [auto|]. split; [|split; [|split; [|split; [|split]]]].
    + split; [split|].
      * rewrite <- (py_round_int 0). apply py_round_mono; auto.
      * apply py_round_mono; auto.
      * rewrite <- (py_round_int n) at 2. apply py_round_mono. nra.
    + intros _. split; [lra|]. split; [apply rounds|]. rewrite (Rplus_comm f w). apply rounds.
    + discriminate.
    + cbn [region_size]. replace (w * IZR n) with ((w + f) * IZR n - f * IZR n) by ring. apply D; auto.
    + intros Z. cbn [region_size]. assert (w = 0) as ->; [|rewrite Rplus_0_l; lia].
      unfold w. rewrite Z, Rabs_R0. apply Rmin_left; lra.
    + intros G. cbn [region_size]. assert (w = 1) as W1 by (unfold w; apply Rmin_right; auto).
      assert (f = 0) as F by lra. rewrite W1, F, Rmult_0_l, Rplus_0_r, Rmult_1_l, (py_round_int 0), (py_round_int n). lia.
  - apply rleb_false in L. exists (py_round ((w + f - 1) * IZR n)), (py_round (f * IZR n)), true, f, w.
    assert ((w + f - 1) * IZR n <= f * IZR n) as M by nra.
    assert (0 <= (w + f - 1) * IZR n) as M0 by (apply Rmult_le_pos; lra).
    split; [exact E|]. split; [auto|]. split; [|split; [|split; [|split; [|split]]]].
    + split; [split|].
      * rewrite <- (py_round_int 0). apply py_round_mono; auto.
      * apply py_round_mono; auto.
      * rewrite <- (py_round_int n) at 2. apply py_round_mono. auto.
    + discriminate.
    + intros _. split; [lra|]. split; [|apply rounds]. rewrite (Rplus_comm f w). apply rounds.
    + cbn [region_size]. rewrite minus_IZR.
      pose proof (py_round_near ((w + f - 1) * IZR n)). pose proof (py_round_near (f * IZR n)).
      rewrite minus_IZR. apply Rabs_le. nra.
    + intros Z. exfalso. assert (w = 0); [|lra].
      unfold w. rewrite Z, Rabs_R0. apply Rmin_left; lra.
    + intros G. cbn [region_size]. assert (w = 1) as -> by (unfold w; apply Rmin_right; auto).
      replace (1 + f - 1) with f by ring. lia.
Qed.

(** the double nearest to 0.3 *)
Definition double_0_3 : spec_float := S754_finite false 5404319552844595 (-54).
Definition double_1 : spec_float := S754_finite false 4503599627370496 (-52).

(** Refuted in doubles: width 1.0, offset 0.3 on 15 rows gives the region 5 .. 4. *)
Theorem C46_region_refuted : exists width offset n s e inv, (0 <= n)%Z /\
  ratio_to_region double width offset n = (s, e, inv) /\ (e < s)%Z.
Proof.
  exists double_1, double_0_3, 15%Z, 5%Z, 4%Z, true. split; [lia|]. split; [vm_compute; reflexivity|lia].
Qed.

(** tensor_sum takes rows from b inside the region and from a outside *)
Lemma assign_nth : forall A (d : A) x y s e j, length x = length y -> (j < length x)%nat ->
  nth j (assign_slice x y s e) d = if (s <=? j)%nat && (j <? e)%nat then nth j y d else nth j x d.
Proof.
  intros A d x y s e j L J. unfold assign_slice.
  set (f := fun p : nat * (A * A) => _).
  rewrite (nth_indep _ d (f (0%nat, (d, d)))).
  - rewrite map_nth, combine_nth, combine_nth, seq_nth; auto. rewrite seq_length, combine_length. lia.
  - rewrite map_length, combine_length, combine_length, seq_length. lia.
Qed.
Lemma assign_length : forall A (x y : list A) s e, length x = length y -> length (assign_slice x y s e) = length x.
Proof. intros. unfold assign_slice. rewrite map_length, combine_length, combine_length, seq_length. lia. Qed.

Theorem C46_tensor_sum : forall A (d : A) (a b : list A) width offset, length a = length b ->
  exists s e inv, ratio_to_region exact width offset (Z.of_nat (length a)) = (s, e, inv) /\
    let r := tensor_sum exact a b width offset in
    length r = length a /\
    (forall j, (j < length a)%nat -> nth j r d =
       if xorb inv ((s <=? Z.of_nat j) && (Z.of_nat j <? e))%Z then nth j b d else nth j a d) /\
    (width = 0 -> r = a) /\ (1 <= Rabs width -> r = b).
Proof.
  intros A d a b width offset L.
  destruct (C46_region_partial width offset (Z.of_nat (length a)) ltac:(lia)) as (s & e & inv & o & w & E & _ & (B & Bn) & _ & _ & _ & Z0 & Z1).
  exists s, e, inv. split; auto. intros r.
  assert (length r = length a) as Lr.
  { unfold r, tensor_sum. rewrite E. destruct inv; rewrite assign_length; auto. }
  assert (forall j, (j < length a)%nat -> nth j r d =
       if xorb inv ((s <=? Z.of_nat j) && (Z.of_nat j <? e))%Z then nth j b d else nth j a d) as H.
  { intros j J.
    assert (((Z.to_nat s <=? j) && (j <? Z.to_nat e))%nat = ((s <=? Z.of_nat j) && (Z.of_nat j <? e))%Z) as C.
    { f_equal.
      - destruct (Nat.leb_spec (Z.to_nat s) j), (Z.leb_spec s (Z.of_nat j)); auto; lia.
      - destruct (Nat.ltb_spec j (Z.to_nat e)), (Z.ltb_spec (Z.of_nat j) e); auto; lia. }
    unfold r, tensor_sum. rewrite E. destruct inv; rewrite (assign_nth _ d) by lia; rewrite C;
      destruct ((s <=? Z.of_nat j) && (Z.of_nat j <? e))%Z; auto. }
  split; auto. split; auto. split.
  - intros W. specialize (Z0 W). apply (nth_ext _ _ d d); auto. intros j J. rewrite H by lia. cbn [region_size] in Z0.
    destruct inv.
    + replace ((s <=? Z.of_nat j) && (Z.of_nat j <? e))%Z with true; auto.
      symmetry. apply andb_true_intro. split; [apply Z.leb_le|apply Z.ltb_lt]; lia.
    + replace ((s <=? Z.of_nat j) && (Z.of_nat j <? e))%Z with false; auto.
      symmetry. apply andb_false_iff. destruct (Z.leb_spec s (Z.of_nat j)); [right; apply Z.ltb_ge; lia|auto].
  - intros W. specialize (Z1 W). apply (nth_ext _ _ d d); [congruence|]. intros j J. rewrite H by lia. cbn [region_size] in Z1.
    destruct inv.
    + replace ((s <=? Z.of_nat j) && (Z.of_nat j <? e))%Z with false; auto.
      symmetry. apply andb_false_iff. destruct (Z.leb_spec s (Z.of_nat j)); [right; apply Z.ltb_ge; lia|auto].
    + replace ((s <=? Z.of_nat j) && (Z.of_nat j <? e))%Z with true; auto.
      symmetry. apply andb_true_intro. split; [apply Z.leb_le|apply Z.ltb_lt]; lia.
Qed.

(** doubles that round exactly: half of 4 rows from the middle *)
Example C46_case : ratio_to_region double (S754_finite false 4503599627370496 (-53)) (S754_finite false 4503599627370496 (-54)) 4 = (1, 3, false)%Z.
Proof. vm_compute. reflexivity. Qed.

Print Assumptions C46_region_partial.
Print Assumptions C46_region_refuted.
Print Assumptions C46_tensor_sum.
