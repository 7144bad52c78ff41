(** Decimal printing and reading of naturals (Python [str(int)] / [int(str)]
    on canonical spellings), used by the JSON and recipe models. *)
From Coq Require Import String Ascii List Bool Arith NArith Lia.
From Verif Require Import Base.
Import ListNotations.
Local Open Scope N_scope.

Definition digit (d : N) : ascii := ascii_of_N (48 + d).

Definition is_digit (c : ascii) : bool :=
  (48 <=? N_of_ascii c) && (N_of_ascii c <=? 57).

Definition digit_val (c : ascii) : N := N_of_ascii c - 48.

Fixpoint dec_fuel (fuel : nat) (n : N) : chars :=
  match fuel with
  | O => [digit (n mod 10)]
  | S fuel' => if n <? 10 then [digit n] else dec_fuel fuel' (n / 10) ++ [digit (n mod 10)]
  end.

(** [str(n)]; [N.size_nat n] (number of bits) is more than the number of digits. *)
Definition dec (n : N) : chars := dec_fuel (N.size_nat n) n.

(** value of a run of digits *)
Definition undec (l : chars) : N := fold_left (fun a c => 10 * a + digit_val c) l 0.

Lemma digit_val_digit : forall d, d < 10 -> digit_val (digit d) = d.
Proof.
  intros d H. unfold digit_val, digit. rewrite N_ascii_embedding by lia. lia.
Qed.

Lemma is_digit_digit : forall d, d < 10 -> is_digit (digit d) = true.
Proof.
  intros d H. unfold is_digit, digit. rewrite N_ascii_embedding by lia.
  apply andb_true_intro; split; apply N.leb_le; lia.
Qed.

Lemma size_nat_size : forall m, N.of_nat (N.size_nat m) = N.size m.
Proof. intros [|p]; simpl; auto. induction p; simpl; try (rewrite <- ?IHp); try lia; auto. Qed.

Lemma size_nat_le : forall n f, (N.size_nat n <= f)%nat <-> n < 2 ^ N.of_nat f.
Proof.
  intros n f. split; intros H.
  - apply N.lt_le_trans with (2 ^ N.size n); [apply N.size_gt|].
    rewrite <- size_nat_size. apply N.pow_le_mono_r; lia.
  - destruct n as [|p]; [simpl; lia|].
    pose proof (N.size_le (N.pos p)) as Hle.
    assert (Hlt : 2 ^ N.size (N.pos p) < 2 ^ (N.of_nat f + 1)).
    { rewrite N.pow_add_r. change (2 ^ 1) with 2. rewrite N.succ_double_spec in Hle.
      assert (2 * N.pos p + 2 <= 2 ^ N.of_nat f * 2) by lia. lia. }
    apply N.pow_lt_mono_r_iff in Hlt; [|lia].
    rewrite <- size_nat_size in Hlt. lia.
Qed.

Lemma size_nat_div10 : forall n f, 10 <= n -> (N.size_nat n <= S f)%nat -> (N.size_nat (n / 10) <= f)%nat.
Proof.
  intros n f Hn Hs. apply size_nat_le. apply size_nat_le in Hs.
  rewrite Nat2N.inj_succ, N.pow_succ_r' in Hs.
  apply N.div_lt_upper_bound; lia.
Qed.

Lemma dec_fuel_undec : forall f n, (N.size_nat n <= f)%nat -> undec (dec_fuel f n) = n.
Proof.
  induction f as [|f IH]; intros n Hf.
  - assert (n = 0). { destruct n as [|p]; auto. simpl in Hf. destruct p; simpl in Hf; lia. }
    subst; reflexivity.
  - simpl. destruct (N.ltb_spec n 10) as [Hlt|Hge].
    + unfold undec; simpl. rewrite digit_val_digit by auto. lia.
    + unfold undec. rewrite fold_left_app. fold (undec (dec_fuel f (n / 10))).
      rewrite IH by (apply size_nat_div10; auto). cbn [fold_left].
      rewrite digit_val_digit by (apply N.mod_lt; lia).
      pose proof (N.div_mod n 10). lia.
Qed.

Theorem undec_dec : forall n, undec (dec n) = n.
Proof. intros n. apply dec_fuel_undec; auto. Qed.

Lemma dec_fuel_digits : forall f n c, In c (dec_fuel f n) -> is_digit c = true.
Proof.
  induction f as [|f IH]; intros n c; simpl.
  - intros [<-|[]]. apply is_digit_digit. apply N.mod_lt; lia.
  - destruct (N.ltb_spec n 10) as [Hlt|Hge].
    + intros [<-|[]]. apply is_digit_digit; auto.
    + rewrite in_app_iff. intros [H|[<-|[]]]; eauto.
      apply is_digit_digit. apply N.mod_lt; lia.
Qed.

Lemma dec_digits : forall n c, In c (dec n) -> is_digit c = true.
Proof. intros n c; apply dec_fuel_digits. Qed.

Lemma dec_fuel_nonempty : forall f n, dec_fuel f n <> [].
Proof.
  intros [|f] n; simpl; [discriminate|].
  destruct (n <? 10); [discriminate|]. destruct (dec_fuel f (n/10)); discriminate.
Qed.

Lemma dec_nonempty : forall n, dec n <> [].
Proof. intros n; apply dec_fuel_nonempty. Qed.

Lemma dec_fuel_enough : forall f g n, (N.size_nat n <= f)%nat -> (N.size_nat n <= g)%nat ->
  dec_fuel f n = dec_fuel g n.
Proof.
  assert (Z: forall n, (N.size_nat n <= 0)%nat -> n = 0).
  { intros [|p] Hp; auto. simpl in Hp. destruct p; simpl in Hp; lia. }
  induction f as [|f IH]; intros g n Hf Hg.
  - apply Z in Hf; subst. destruct g; reflexivity.
  - destruct g as [|g].
    + apply Z in Hg; subst; reflexivity.
    + simpl. destruct (N.ltb_spec n 10); auto.
      rewrite (IH g (n/10)); auto; apply size_nat_div10; auto.
Qed.

Lemma dec_step : forall n, dec n = if n <? 10 then [digit n] else dec (n / 10) ++ [digit (n mod 10)].
Proof.
  intros n. unfold dec at 1.
  rewrite (dec_fuel_enough (N.size_nat n) (S (N.size_nat n))) by lia.
  simpl. destruct (N.ltb_spec n 10); auto.
  f_equal. apply dec_fuel_enough; auto.
  apply size_nat_div10; auto; lia.
Qed.

(** more digits for larger numbers *)
Lemma dec_length_mono : forall n m, n <= m -> (length (dec n) <= length (dec m))%nat.
Proof.
  assert (H: forall f n m, (N.size_nat m <= f)%nat -> n <= m -> (length (dec n) <= length (dec m))%nat).
  { induction f as [|f IH]; intros n m Hf Hle.
    - assert (m = 0). { destruct m as [|p]; auto. simpl in Hf. destruct p; simpl in Hf; lia. }
      assert (n = 0) by lia. subst; auto.
    - rewrite (dec_step n), (dec_step m).
      destruct (N.ltb_spec n 10), (N.ltb_spec m 10); simpl; try lia.
      + rewrite app_length; simpl; lia.
      + rewrite !app_length. simpl.
        assert (length (dec (n/10)) <= length (dec (m/10)))%nat; [|lia].
        apply IH; [apply size_nat_div10; auto | apply N.div_le_mono; lia]. }
  intros n m Hle. apply (H (N.size_nat m)); auto.
Qed.
