(** Proofs about ModelNumbers.v. *)
From Coq Require Import List Bool Arith NArith ZArith Reals Ascii Lia Lra.
From Flocq Require Import Core BinarySingleNaN Binary Bits.
From Verif Require Import Base ModelStream ModelRound ModelNumbers SpecNumbers OutProofs2.
Import ListNotations.
Open Scope list_scope.
Open Scope nat_scope.

Lemma upto_ext : forall w f g, (forall i, i < w -> f i = g i) -> upto w f = upto w g.
Proof. induction w; intros f g H; simpl; auto. rewrite (IHw f g), (H w) by (intros; auto; apply H; lia). reflexivity. Qed.
Lemma upto_first : forall w f, upto (S w) f = (f 0%nat + upto w (fun i => f (S i)))%N.
Proof. induction w; intro f; [simpl; lia|]. change (upto (S (S w)) f) with (upto (S w) f + f (S w))%N. rewrite IHw. simpl. lia. Qed.
Lemma upto_mul : forall w c f, upto w (fun i => (c * f i)%N) = (c * upto w f)%N.
Proof. induction w; intros c f; simpl; [lia|]. rewrite IHw. lia. Qed.
Lemma le_value_upto : forall l, le_value l = upto (length l) (fun i => (N_of_ascii (nth i l zero_byte) * 256 ^ N.of_nat i)%N).
Proof.
  induction l as [|c l IH]; [reflexivity|]. cbn [le_value length]. rewrite upto_first, IH, <- upto_mul.
  f_equal; [simpl; lia|]. apply upto_ext. intros i _. rewrite Nat2N.inj_succ, N.pow_succ_r'. simpl nth. lia.
Qed.

Lemma groups_of_concat : forall w ls fuel, 0 < w -> Forall (fun c => length c = w) ls -> length ls <= fuel ->
  groups_of fuel w (concat ls) = ls.
Proof.
  intros w ls. induction ls as [|c ls IH]; intros fuel W F L.
  - destruct fuel; reflexivity.
  - inversion F as [|x y C F']; subst x y. simpl in L. destruct fuel as [|fuel]; [lia|]. cbn [concat groups_of].
    assert (X : exists b r, c ++ concat ls = b :: r).
    { destruct c; [simpl in C; lia|]. simpl. eauto. }
    destruct X as (b & r & X). rewrite X, <- X. f_equal.
    + rewrite <- C. rewrite firstn_app, Nat.sub_diag, firstn_all. simpl. apply app_nil_r.
    + replace (skipn w (c ++ concat ls)) with (concat ls); [apply IH; auto; lia|].
      rewrite <- C, skipn_app, Nat.sub_diag, skipn_all. reflexivity.
Qed.
Lemma concat_length_ge : forall w (ls : list (list byte)), 0 < w -> Forall (fun c => length c = w) ls ->
  length (concat ls) = length ls * w.
Proof. intros w ls W F. induction F; simpl; auto. rewrite app_length, IHF, H. lia. Qed.
Lemma groups_concat : forall w ls, 0 < w -> Forall (fun c => length c = w) ls -> groups w (concat ls) = ls.
Proof.
  intros w ls W F. unfold groups. apply groups_of_concat; auto. rewrite (concat_length_ge w) by auto. nia.
Qed.

Lemma nth_concat : forall w (ls : list (list byte)) k c i, Forall (fun c => length c = w) ls -> nth_error ls k = Some c -> i < w ->
  nth (k * w + i) (concat ls) zero_byte = nth i c zero_byte.
Proof.
  intros w ls. induction ls as [|d ls IH]; intros k c i F E I; [destruct k; discriminate|].
  inversion F as [|x y C F']; subst x y. destruct k as [|k]; simpl in E |- *.
  - injection E as ->. rewrite app_nth1 by lia. reflexivity.
  - rewrite app_nth2 by lia. rewrite <- (IH k c i F' E I). f_equal. lia.
Qed.
Lemma number_in_file : forall w (ls : list (list byte)) k c, Forall (fun c => length c = w) ls -> nth_error ls k = Some c ->
  file_number w k (concat ls) = le_value c.
Proof.
  intros w ls k c F E. assert (L : length c = w).
  { rewrite Forall_forall in F. apply F. eapply nth_error_In; eauto. }
  rewrite le_value_upto, L. apply upto_ext. intros i I. rewrite (nth_concat w ls k c i F E I). reflexivity.
Qed.

Lemma in_groups : forall w n (l : list byte), length l = w * n ->
  exists ls, l = concat ls /\ Forall (fun c => length c = w) ls /\ length ls = n.
Proof.
  intros w n. induction n as [|n IH]; intros l L.
  - exists []. rewrite Nat.mul_0_r in L. destruct l; [auto|discriminate].
  - destruct (IH (skipn w l)) as (ls & E & F & N); [rewrite skipn_length; nia|].
    exists (firstn w l :: ls). split; [simpl; rewrite <- E; symmetry; apply firstn_skipn|]. split; [|simpl; auto].
    constructor; trivial. rewrite firstn_length. nia.
Qed.
Lemma read_numbers : forall d n data, length data = dtype_size d * n ->
  from_file Little d data = map (fun k => file_number (dtype_size d) k data) (seq 0 n).
Proof.
  intros d n data L. destruct (in_groups _ _ _ L) as (ls & -> & F & N). unfold from_file.
  rewrite groups_concat by (trivial; destruct d; simpl; lia). subst n.
  assert (G : forall k, k < length ls -> exists c, nth_error ls k = Some c).
  { intros k K. destruct (nth_error ls k) eqn:E; eauto. apply nth_error_None in E. lia. }
  transitivity (map (fun k => le_value (nth k ls [])) (seq 0 (length ls))).
  - clear. induction ls as [|c ls IH]; [reflexivity|]. cbn [map length seq nth]. f_equal. rewrite IH, <- seq_shift, map_map. reflexivity.
  - apply map_ext_in. intros k I. apply in_seq in I. destruct (G k) as [c C]; [lia|].
    rewrite (number_in_file _ _ k c F C). f_equal. apply nth_error_nth. exact C.
Qed.

(** ** floating point *)
Lemma number_value : forall f n, exponent (mw f) (ew f) (Z.of_N n) <> (2 ^ ew f - 1)%Z ->
  BinarySingleNaN.is_finite (number f n) = true /\ BinarySingleNaN.B2R (number f n) = ieee_value (mw f) (ew f) (Z.of_N n).
Proof.
  intros f n X. unfold number. rewrite is_finite_B2BSN, B2R_B2BSN. unfold binary_float_of_bits.
  rewrite is_finite_FF2B, B2R_FF2B. destruct f as [m e M E P L]. simpl in *. unfold binary_float_of_bits_aux, split_bits.
  rewrite <- Z.pow_add_r by lia. fold (negative m e (Z.of_N n)) (fraction m e (Z.of_N n)) (exponent m e (Z.of_N n)).
  unfold ieee_value. assert (F : (0 <= fraction m e (Z.of_N n))%Z) by (apply Z.mod_pos_bound; apply Z.pow_pos_nonneg; lia).
  assert (Q : (0 < 2 ^ m)%Z) by (apply Z.pow_pos_nonneg; lia).
  set (s := negative _ _ _) in *. set (fr := fraction _ _ _) in *. set (ex := exponent _ _ _) in *.
  assert (G : forall p k, FF2R radix2 (F754_finite s p k) = ((if s then -1 else 1) * (IZR (Zpos p) * powerRZ 2 k))%R).
  { intros p k. unfold FF2R, F2R, cond_Zopp. cbn [Fnum Fexp]. rewrite bpow_powerRZ. cbn [radix_val radix2].
    destruct s; [rewrite opp_IZR|]; ring. }
  destruct (Z.eqb_spec ex 0) as [E0|E0].
  - rewrite E0. change (Zeq_bool 0 0) with true. cbv iota. destruct fr as [|p|p] eqn:FR; [|split; [reflexivity|]|lia].
    + split; [reflexivity|]. simpl. ring.
    + rewrite G. replace (2 - 2 ^ (e - 1) - m)%Z with (SpecFloat.emin (m + 1) (2 ^ (e - 1))) by (unfold SpecFloat.emin; lia).
      reflexivity.
  - assert (Z1 : Zeq_bool ex 0 = false) by (apply Zeq_bool_false; exact E0).
    assert (Z2 : Zeq_bool ex (2 ^ e - 1) = false) by (apply Zeq_bool_false; exact X).
    rewrite Z1, Z2. destruct (fr + 2 ^ m)%Z as [|p|p] eqn:FR; [lia|split; [reflexivity|]|lia].
    rewrite G. rewrite Z.add_comm in FR. rewrite FR.
    replace (ex + 1 - 2 ^ (e - 1) - m)%Z with (ex + SpecFloat.emin (m + 1) (2 ^ (e - 1)) - 1)%Z by (unfold SpecFloat.emin; lia).
    reflexivity.
Qed.
Lemma number_special : forall f n, exponent (mw f) (ew f) (Z.of_N n) = (2 ^ ew f - 1)%Z ->
  BinarySingleNaN.is_finite (number f n) = false.
Proof.
  intros f n X. unfold number. rewrite is_finite_B2BSN. unfold binary_float_of_bits.
  rewrite is_finite_FF2B. destruct f as [m e M E P L]. simpl in *. unfold binary_float_of_bits_aux, split_bits.
  rewrite <- Z.pow_add_r by lia. fold (negative m e (Z.of_N n)) (fraction m e (Z.of_N n)) (exponent m e (Z.of_N n)).
  assert (F : (0 <= fraction m e (Z.of_N n))%Z) by (apply Z.mod_pos_bound; apply Z.pow_pos_nonneg; lia).
  assert (Q : (2 <= 2 ^ e)%Z) by (change 2%Z with (2 ^ 1)%Z at 1; apply Z.pow_le_mono_r; lia).
  rewrite X. rewrite (Zeq_bool_false (2 ^ e - 1) 0) by lia. rewrite (Zeq_bool_true (2 ^ e - 1) (2 ^ e - 1)) by reflexivity.
  destruct (fraction m e (Z.of_N n)); reflexivity.
Qed.
Lemma number_bits : forall f nan x, number f (bits f nan x) = x.
Proof.
  intros f nan x. unfold number, bits.
  rewrite Z2N.id by (apply (bits_of_binary_float_range (mw f) (ew f) (mw_pos f) (ew_pos f))).
  rewrite binary_float_of_bits_of_binary_float. apply B2BSN_BSN2B.
Qed.
Lemma bits_range : forall f nan x, (bits f nan x < 2 ^ Z.to_N (mw f + ew f + 1))%N.
Proof.
  intros f nan x. pose proof (bits_of_binary_float_range (mw f) (ew f) (mw_pos f) (ew_pos f) (BSN2B _ _ nan x)) as R.
  pose proof (mw_pos f). pose proof (ew_pos f). unfold bits. apply N2Z.inj_lt. rewrite Z2N.id by apply R.
  rewrite N2Z.inj_pow, Z2N.id by lia. apply R.
Qed.
