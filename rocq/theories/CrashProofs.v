(** What an interrupted write leaves on disk. *)
From Coq Require Import String Ascii List Bool Arith NArith Lia Permutation.
From Verif Require Import Base Dec Json JsonProofs JsonTrunc PyStr ModelStream InProofs OutProofs OutProofs2 OutProofs3.
Import ListNotations.

(** the file is untouched before [base], except for the zeros of the hole *)
Definition zero_head (base : nat) (f : list byte) : Prop := f = [] \/ exists D, f = zeros base ++ D.

Lemma zeros_app : forall a b, zeros (a + b) = zeros a ++ zeros b.
Proof. intros; apply repeat_app. Qed.

Lemma zero_head_fwrite : forall base f pos d, base <= pos -> zero_head base f -> zero_head base (fwrite f pos d).
Proof.
  intros base f pos d Hp Hf. unfold fwrite. destruct d as [|x d]; auto. right.
  destruct Hf as [->|[D ->]].
  - rewrite app_nil_l, Nat.sub_0_r. rewrite firstn_all2 by (rewrite zeros_length; lia).
    assert (E : zeros pos = zeros base ++ zeros (pos - base)) by (rewrite <- zeros_app; f_equal; lia).
    rewrite E, <- app_assoc. eauto.
  - rewrite <- app_assoc. rewrite firstn_app, zeros_length.
    rewrite firstn_all2 by (rewrite zeros_length; lia). rewrite <- app_assoc. eauto.
Qed.

Lemma zero_head_apply : forall base ws f, Forall (fun w => base <= fst w) ws -> zero_head base f ->
  zero_head base (apply_writes f ws).
Proof.
  intros base ws. unfold apply_writes. induction ws as [|w ws IH]; intros f HF Hf; simpl; auto.
  inversion HF; subst. apply IH; auto. apply zero_head_fwrite; auto.
Qed.

Lemma zero_head_weaken : forall a b f, a <= b -> zero_head b f -> zero_head a f.
Proof.
  intros a b f H [->|[D ->]]; [left; auto|right].
  replace b with (a + (b - a)) by lia. rewrite zeros_app, <- app_assoc. eauto.
Qed.

Lemma le_value_zeros : forall l k, le_value (l ++ zeros k) = le_value l.
Proof.
  induction l as [|c l IH]; intros k; cbn [app le_value].
  - induction k; cbn [zeros repeat le_value]; auto. unfold zeros in *. rewrite IHk. reflexivity.
  - rewrite IH; auto.
Qed.

Lemma zero_head_unreadable : forall cap f, 8 <= cap -> zero_head 8 f ->
  read_header cap f = Err StructError \/ read_header cap f = Err JSONDecodeError.
Proof.
  intros cap f Hc [->|[D ->]].
  - left. unfold read_header, fread. rewrite skipn_nil, firstn_nil. reflexivity.
  - right. unfold read_header. replace (fread cap (zeros 8 ++ D) 0 8) with (zeros 8).
    + cbn [bind]. replace (unpack_Q (zeros 8)) with (Ok 0%N) by reflexivity. cbn [bind].
      change (N.to_nat 0) with 0. unfold fread. rewrite Nat.min_0_l. reflexivity.
    + symmetry. apply (fread_prefix cap (zeros 8) D). rewrite zeros_length; auto.
Qed.

Lemma relocate_as_writes : forall fuel f e lo chunk shift,
  relocate fuel f e lo chunk shift = apply_writes f (relocate_writes fuel f e lo chunk shift).
Proof.
  induction fuel as [|fuel IH]; intros; simpl; auto.
  destruct (e <=? lo); auto. rewrite IH. reflexivity.
Qed.

Lemma relocate_writes_pos : forall fuel f e lo chunk shift,
  Forall (fun w => lo + shift <= fst w) (relocate_writes fuel f e lo chunk shift).
Proof.
  induction fuel as [|fuel IH]; intros; simpl; auto.
  destruct (e <=? lo); auto. constructor; auto. simpl. lia.
Qed.

(** ** torn header *)
Lemma le_value_firstn : forall i l, (le_value (firstn i l) <= le_value l)%N.
Proof.
  induction i as [|i IH]; intros l; [simpl; lia|]. destruct l as [|c l]; simpl firstn; [simpl; lia|].
  cbn [le_value]. specialize (IH l). lia.
Qed.

Lemma fread_zeros : forall cap a z D n, n <= z -> n <= cap -> fread cap (a ++ zeros z ++ D) (length a) n = zeros n.
Proof.
  intros. unfold fread. rewrite Nat.min_l by lia. rewrite skipn_app_exact.
  replace z with (n + (z - n)) by lia. rewrite zeros_app, <- app_assoc.
  rewrite <- (zeros_length n) at 1. apply firstn_app_exact.
Qed.

Lemma decode_zeros : forall n, decode_utf8 (zeros n) = Ok (zeros n).
Proof.
  intros. unfold decode_utf8. rewrite forallb_ascii; auto.
  intros x Hx. apply repeat_spec in Hx. subst; reflexivity.
Qed.

Lemma loads_zeros : forall n, json_loads (strip (zeros n)) = Err JSONDecodeError.
Proof.
  intros [|[|n]]; try reflexivity.
  assert (E: zeros (S (S n)) = zero_byte :: zeros n ++ [zero_byte]).
  { unfold zeros. change (zero_byte :: repeat zero_byte (S n) = zero_byte :: repeat zero_byte n ++ [zero_byte]).
    f_equal. apply (repeat_cons n zero_byte). }
  rewrite E. rewrite strip_id by reflexivity. apply json_loads_nul.
Qed.

Lemma rstrip_firstn : forall l, exists i, rstrip l = firstn i l.
Proof.
  intros l. unfold rstrip.
  assert (forall r, exists k, lstrip r = skipn k r).
  { induction r as [|c r (k & IH)]; simpl; [exists 0; auto|].
    destruct (py_isspace c); [exists (S k); simpl; auto|exists 0; auto]. }
  destruct (H (rev l)) as (k & ->).
  exists (length l - k). rewrite skipn_rev, rev_involutive. auto.
Qed.

Lemma torn_size : forall cap size8 m D i,
  pack_Q (N.of_nat m) = Ok size8 -> 8 <= cap -> m <= cap -> i <= 8 ->
  read_header cap (firstn i size8 ++ zeros (8 - i) ++ zeros m ++ D) = Err JSONDecodeError.
Proof.
  intros cap size8 m D i Hp H8 Hm Hi. destruct (unpack_pack _ _ Hp) as (Hu & L8).
  unfold read_header.
  set (a := firstn i size8 ++ zeros (8 - i)).
  assert (La : length a = 8) by (unfold a; rewrite app_length, firstn_length, zeros_length; lia).
  rewrite (app_assoc (firstn i size8)). fold a.
  assert (E1: fread cap (a ++ zeros m ++ D) 0 8 = a).
  { rewrite <- La. apply fread_prefix. lia. }
  rewrite E1. unfold unpack_Q. rewrite La. simpl Nat.eqb. cbv iota. cbn [bind].
  assert (Hle : N.to_nat (le_value a) <= m).
  { unfold a. rewrite le_value_zeros. pose proof (le_value_firstn i size8).
    assert (le_value size8 = N.of_nat m). { unfold unpack_Q in Hu. rewrite L8 in Hu. simpl in Hu. congruence. }
    lia. }
  assert (E2: fread cap (a ++ zeros m ++ D) 8 (N.to_nat (le_value a)) = zeros (N.to_nat (le_value a))).
  { rewrite <- La. apply fread_zeros; lia. }
  rewrite E2, decode_zeros. cbn [bind]. rewrite loads_zeros. reflexivity.
Qed.

Lemma torn_size_empty : forall cap size8 m i,
  pack_Q (N.of_nat m) = Ok size8 -> 8 <= cap -> i <= 8 ->
  read_header cap (firstn i size8) = Err StructError \/ read_header cap (firstn i size8) = Err JSONDecodeError.
Proof.
  intros cap size8 m i Hp H8 Hi. destruct (unpack_pack _ _ Hp) as (Hu & L8).
  assert (E1: fread cap (firstn i size8) 0 8 = firstn i size8).
  { unfold fread. simpl skipn. rewrite firstn_firstn. f_equal. lia. }
  unfold read_header. rewrite E1.
  destruct (Nat.eq_dec i 8) as [->|Hne].
  - right. rewrite (firstn_all2 size8) by lia. rewrite Hu. cbn [bind].
    unfold fread. rewrite skipn_all2 by lia. rewrite firstn_nil. reflexivity.
  - left. unfold unpack_Q. rewrite firstn_length, L8, Nat.min_l by lia.
    destruct (Nat.eqb_spec i 8); [lia|reflexivity].
Qed.

(** the header region holds [p], read as a whole *)
Lemma read_region : forall cap size8 m R D,
  pack_Q (N.of_nat m) = Ok size8 -> 8 <= cap -> m <= cap ->
  (length R = m \/ (length R <= m /\ D = [])) ->
  (forall x, In x R -> (N_of_ascii x < 128)%N) ->
  read_header cap (size8 ++ R ++ D) =
   (let* j := json_loads (strip R) in
    match j with JObj h => let* h' := sort_header h in Ok (m, h') | _ => Err AttributeError end).
Proof.
  intros cap size8 m R D Hp H8 Hm HR Ha. destruct (unpack_pack _ _ Hp) as (Hu & L8).
  unfold read_header.
  assert (E1: fread cap (size8 ++ R ++ D) 0 8 = size8) by (rewrite <- L8; apply fread_prefix; lia).
  rewrite E1, Hu. cbn [bind]. rewrite Nat2N.id.
  assert (E2: fread cap (size8 ++ R ++ D) 8 m = R).
  { destruct HR as [HR|[HR ->]].
    - rewrite <- L8. apply fread_mid; lia.
    - rewrite app_nil_r. unfold fread. rewrite <- L8, skipn_app_exact. apply firstn_all2. lia. }
  rewrite E2. unfold decode_utf8. rewrite forallb_ascii by auto. reflexivity.
Qed.

Lemma head_brace : forall l i, 0 < i -> exists r, firstn i (json_dumps (JObj l)) = "{"%char :: r.
Proof. intros l [|i] H; [lia|]. simpl. eauto. Qed.

Lemma strip_brace : forall r, strip ("{"%char :: r) = rstrip ("{"%char :: r).
Proof. reflexivity. Qed.

(** ** the three header writes, interrupted *)
Definition crash_of (W : list (nat * list byte)) (f : list byte) : Prop :=
  (exists W1 W2 p d d', W = W1 ++ (p, d ++ d') :: W2 /\ f = apply_writes [] (W1 ++ [(p, d)])) \/
  f = apply_writes [] W.

Lemma crash_pos : forall base W f, Forall (fun w => base <= fst w) W -> crash_of W f -> zero_head base f.
Proof.
  intros base W f HF [(W1 & W2 & p & d & d' & -> & ->)| ->].
  - apply Forall_app in HF as (HF1 & HF2). inversion HF2; subst.
    apply zero_head_apply; [|left; auto]. apply Forall_app; split; auto.
  - apply zero_head_apply; auto. left; auto.
Qed.

Lemma app_eq_split : forall A (a b c : list A) (x : A) d, a ++ b = c ++ x :: d ->
  (exists e, a = c ++ x :: e /\ d = e ++ b) \/ (exists e, c = a ++ e /\ b = e ++ x :: d).
Proof.
  induction a as [|y a IH]; intros b c x d H; simpl in H.
  - right. exists c. auto.
  - destruct c as [|z c]; simpl in H; inversion H; subst.
    + left. exists a. auto.
    + destruct (IH _ _ _ _ H2) as [(e & -> & ->)|(e & -> & ->)]; [left|right]; exists e; auto.
Qed.

Lemma crash_app : forall W1 W2 f, crash_of (W1 ++ W2) f ->
  crash_of W1 f \/
  exists V U p d d', W2 = V ++ (p, d ++ d') :: U /\ f = apply_writes (apply_writes [] W1) (V ++ [(p, d)]) \/
  f = apply_writes [] (W1 ++ W2).
Proof.
  intros W1 W2 f [(A & B & p & d & d' & E & ->)| ->].
  - apply app_eq_split in E as [(e & -> & ->)|(e & -> & ->)].
    + left. left. exists A, e, p, d, d'. auto.
    + right. exists e, B, p, d, d'. left. split; auto. rewrite <- app_assoc, apply_writes_app. auto.
  - right. exists [], [], 0, [], []. auto.
Qed.

Lemma firstn_app_l : forall A (d d' : list A), firstn (length d) (d ++ d') = d.
Proof. intros; apply firstn_app_exact. Qed.

Lemma crash_header : forall cap f0 D size8 h overhead f V U p d d',
  let text := json_dumps (JObj h) in
  let m := length text + overhead in
  wfj (JObj h) -> pack_Q (N.of_nat m) = Ok size8 -> 8 <= cap -> m <= cap ->
  fshape f0 (8 + m) D ->
  header_writes cap size8 text overhead = V ++ (p, d ++ d') :: U ->
  f = apply_writes f0 (V ++ [(p, d)]) ->
  (read_header cap f = Err StructError \/ read_header cap f = Err JSONDecodeError) \/
  (read_header cap f = read_header cap (final_file size8 text overhead D) /\ skipn (8 + m) f = D).
Proof.
  intros cap f0 D size8 h overhead f V U p d d' text m Hwf Hp H8 Hcap Hf0 HW Hf.
  destruct (unpack_pack _ _ Hp) as (Hu & L8).
  unfold header_writes in HW.
  rewrite (firstn_all2 text), (firstn_all2 (repeat " "%char overhead)) in HW
    by (rewrite ?repeat_length; unfold m in Hcap; lia).
  rewrite Nat.min_r in HW by (unfold m in Hcap; lia).
  assert (Htext : forall x, In x text -> (N_of_ascii x < 128)%N) by (intros; eapply json_dumps_ascii; eauto).
  assert (Hspace : forall k x, In x (repeat " "%char k) -> (N_of_ascii x < 128)%N).
  { intros k x Hx. apply repeat_spec in Hx. subst; reflexivity. }
  assert (Hzero : forall k x, In x (zeros k) -> (N_of_ascii x < 128)%N).
  { intros k x Hx. apply repeat_spec in Hx. subst; reflexivity. }
  assert (Hfirst : forall i x, In x (firstn i text) -> (N_of_ascii x < 128)%N).
  { intros i x Hx. apply Htext. rewrite <- (firstn_skipn i text). apply in_app_iff; auto. }
  assert (Hbrace : exists q, text = "{"%char :: q ++ ["}"%char]) by apply json_obj_shape.
  (* the successive files of an uninterrupted header write *)
  assert (F1 : forall i, i <= 8 ->
    (D = [] /\ fwrite f0 0 (firstn i size8) = firstn i size8) \/
    (D <> [] /\ fwrite f0 0 (firstn i size8) = firstn i size8 ++ zeros (8 - i) ++ zeros m ++ D)).
  { intros i Hi. destruct Hf0 as [[-> ->]|[Hne ->]].
    - left. split; auto. apply (fwrite_end []).
    - right. split; auto.
      replace (8 + m) with (i + (8 - i) + m) by lia. rewrite !zeros_app, <- !app_assoc.
      apply (fwrite_mid [] (zeros i)). rewrite zeros_length, firstn_length. lia. }
  assert (F2 : forall i, i <= length text ->
    (D = [] /\ fwrite (fwrite f0 0 size8) 8 (firstn i text) = size8 ++ firstn i text) \/
    (D <> [] /\ fwrite (fwrite f0 0 size8) 8 (firstn i text) = size8 ++ firstn i text ++ zeros (m - i) ++ D)).
  { intros i Hi. destruct (F1 8 (le_n 8)) as [[HD E]|[HD E]]; rewrite (firstn_all2 size8) in E by lia; rewrite E.
    - left. split; auto. rewrite <- L8. apply fwrite_end.
    - right. split; auto. simpl (zeros (8 - 8)). rewrite app_nil_l.
      replace m with (i + (m - i)) at 1 by (unfold m; lia). rewrite zeros_app, <- !app_assoc.
      rewrite <- L8. apply fwrite_mid. rewrite zeros_length, firstn_length. lia. }
  assert (F3 : forall j, j <= overhead ->
    (D = [] /\ fwrite (fwrite (fwrite f0 0 size8) 8 text) (8 + length text) (repeat " "%char j)
        = size8 ++ text ++ repeat " "%char j) \/
    (D <> [] /\ fwrite (fwrite (fwrite f0 0 size8) 8 text) (8 + length text) (repeat " "%char j)
        = size8 ++ text ++ repeat " "%char j ++ zeros (overhead - j) ++ D)).
  { intros j Hj. destruct (F2 (length text) (le_n _)) as [[HD E]|[HD E]]; rewrite (firstn_all2 text) in E by lia; rewrite E.
    - left. split; auto. replace (8 + length text) with (length (size8 ++ text)) by (rewrite app_length; lia).
      rewrite fwrite_end, <- app_assoc; auto.
    - right. split; auto. replace (m - length text) with (j + (overhead - j)) by (unfold m; lia).
      rewrite zeros_app, <- !app_assoc. rewrite (app_assoc size8 text).
      replace (8 + length text) with (length (size8 ++ text)) by (rewrite app_length; lia).
      rewrite fwrite_mid by (rewrite zeros_length, repeat_length; auto). rewrite <- !app_assoc. auto. }
  assert (Hfinal : read_header cap (final_file size8 text overhead D) = (let* h' := sort_header h in Ok (m, h'))).
  { apply read_final; auto. }
  destruct V as [|v1 V].
  { (* interrupted while writing the size *)
    simpl in HW. inversion HW as [[E1 E2 E3]]. subst p f. left.
    unfold apply_writes. simpl fold_left.
    assert (Hd : d = firstn (length d) size8) by (rewrite E2, firstn_app_exact; auto).
    assert (Hi : length d <= 8) by (rewrite <- L8, E2, app_length; lia).
    rewrite Hd. destruct (F1 _ Hi) as [[HD E]|[HD E]]; rewrite E.
    - eapply torn_size_empty; eauto.
    - right. eapply torn_size; eauto. }
  destruct V as [|v2 V].
  { (* interrupted while writing the text *)
    simpl in HW. inversion HW as [[E0 E1 E2 E3]]. subst v1 p f.
    unfold apply_writes. simpl fold_left.
    assert (Hd : d = firstn (length d) text) by (rewrite E2, firstn_app_exact; auto).
    assert (Hi : length d <= length text) by (rewrite E2, app_length; lia).
    set (i := length d) in *. clearbody i. subst d.
    destruct (F2 _ Hi) as [[HD E]|[HD E]]; rewrite E; clear E.
    - destruct (Nat.eq_dec i (length text)) as [->|Hne].
      + right. rewrite (firstn_all2 text) by lia.
        rewrite <- (app_nil_r (size8 ++ text)), <- app_assoc.
        rewrite Hfinal. split.
        * rewrite (read_region cap size8 m text []); auto; [|right; split; auto; unfold m; lia].
          destruct Hbrace as (q & Eq). rewrite Eq at 1. rewrite strip_id by reflexivity. rewrite <- Eq.
          pose proof (json_loads_dumps (JObj h) 0 Hwf) as Hl. simpl repeat in Hl. rewrite app_nil_r in Hl.
          unfold text. rewrite Hl. reflexivity.
        * rewrite HD. apply skipn_all2. rewrite !app_length, L8. change (length (@nil ascii)) with 0. unfold m. lia.
      + left. right. rewrite <- (app_nil_r (firstn i text)).
        rewrite (read_region cap size8 m (firstn i text) []); eauto; [|right; split; auto; rewrite firstn_length; unfold m; lia].
        destruct (Nat.eq_dec i 0) as [->|Hi0]; [reflexivity|].
        destruct (head_brace h i ltac:(lia)) as (r & Er). fold text in Er. rewrite Er, strip_brace, <- Er.
        destruct (rstrip_firstn (firstn i text)) as (i' & ->). rewrite firstn_firstn.
        pose proof (json_loads_trunc h (Nat.min i' i) [] Hwf (or_introl eq_refl)) as Ht.
        rewrite app_nil_r in Ht. fold text in Ht. rewrite Ht by lia. reflexivity.
    - destruct (Nat.eq_dec i m) as [Em|Hne].
      + (* no padding: everything is written *)
        assert (overhead = 0) by (unfold m in Em; lia).
        right. rewrite (firstn_all2 text) by (unfold m in Em; lia).
        replace (m - i) with 0 by lia. simpl (zeros 0). rewrite app_nil_l.
        unfold final_file. subst overhead. simpl repeat. rewrite app_nil_l. split; auto.
        rewrite app_assoc. replace (8 + m) with (length (size8 ++ text)) by (rewrite app_length; unfold m; lia).
        apply skipn_app_exact.
      + left. right.
        rewrite (app_assoc (firstn i text)).
        assert (Lz : exists z, m - i = S z) by (exists (m - i - 1); unfold m in Hne |- *; lia).
        rewrite (read_region cap size8 m (firstn i text ++ zeros (m - i)) D); auto.
        2:{ left. rewrite app_length, firstn_length, zeros_length. unfold m. lia. }
        2:{ intros x Hx. apply in_app_or in Hx as [Hx|Hx]; eauto. }
        destruct Lz as (z & Ez).
        assert (Hsp : strip (firstn i text ++ zeros (m - i)) = firstn i text ++ zeros (m - i)).
        { assert (Ezz : zeros (m - i) = zeros z ++ [zero_byte]) by (rewrite Ez; unfold zeros; apply (repeat_cons z zero_byte)).
          destruct (Nat.eq_dec i 0) as [Ei|Hi0].
          - subst i. simpl firstn. rewrite app_nil_l. rewrite Ezz. destruct z as [|z]; [reflexivity|].
            unfold zeros. cbn [repeat app]. apply strip_id; reflexivity.
          - destruct (head_brace h i ltac:(lia)) as (r & Er). fold text in Er. rewrite Er, Ezz.
            rewrite app_assoc, <- !app_comm_cons. apply strip_id; reflexivity. }
        rewrite Hsp. 
        destruct (Nat.eq_dec i (length text)) as [->|Hnt].
        * rewrite (firstn_all2 text) by lia. rewrite Ez.
          pose proof (json_loads_extra (JObj h) 0 (zeros z) Hwf) as Hx. simpl repeat in Hx. rewrite app_nil_l in Hx.
          unfold text. change (zeros (S z)) with (nul :: zeros z). rewrite Hx. reflexivity.
        * pose proof (json_loads_trunc h i (zeros (m - i)) Hwf) as Ht. fold text in Ht.
          rewrite Ht; [reflexivity| |lia]. right. rewrite Ez. exists (zeros z). reflexivity. }
  destruct V as [|v3 V].
  2:{ exfalso. simpl in HW. inversion HW as [[E0 E1 E2 E3]]. destruct V; discriminate. }
  (* interrupted while padding *)
  cbn [app] in HW. 
  assert (E0 : v1 = (0, size8)) by congruence. assert (E1 : v2 = (8, text)) by congruence.
  assert (E2 : p = 8 + length text) by congruence.
  assert (E3 : repeat " "%char overhead = d ++ d') by congruence. clear HW. subst v1 v2 p f.
  unfold apply_writes. cbn [fold_left fst snd app].
  assert (Hd : d = repeat " "%char (length d)).
  { assert (Hx : forall x, In x d -> x = " "%char).
    { intros x Hx. apply (repeat_spec overhead). rewrite E3. apply in_app_iff; auto. }
    clear - Hx. induction d as [|x d IH]; simpl; auto. rewrite <- IH by (intros; apply Hx; simpl; auto).
    f_equal. apply Hx; simpl; auto. }
  assert (Hj : length d <= overhead) by (rewrite <- (repeat_length " "%char overhead), E3, app_length; lia).
  set (j := length d) in *. clearbody j. subst d.
  destruct (F3 _ Hj) as [[HD E]|[HD E]]; rewrite E; clear E.
  - right. rewrite Hfinal. split.
    + rewrite <- (app_nil_r (text ++ repeat " "%char j)).
      rewrite (read_region cap size8 m (text ++ repeat " "%char j) []); auto.
      2:{ right; split; auto. rewrite app_length, repeat_length. unfold m. lia. }
      2:{ intros x Hx. apply in_app_or in Hx as [Hx|Hx]; eauto. }
      destruct Hbrace as (q & Eq). rewrite Eq. rewrite strip_id_spaces by reflexivity. rewrite <- Eq.
      pose proof (json_loads_dumps (JObj h) 0 Hwf) as Hl. simpl repeat in Hl. rewrite app_nil_r in Hl.
      unfold text. rewrite Hl. reflexivity.
    + rewrite HD. apply skipn_all2. rewrite !app_length, repeat_length. unfold m. lia.
  - destruct (Nat.eq_dec j overhead) as [->|Hne].
    + right. rewrite Nat.sub_diag. simpl (zeros 0). rewrite app_nil_l. split; [reflexivity|].
      rewrite !app_assoc. replace (8 + m) with (length ((size8 ++ text) ++ repeat " "%char overhead)).
      * apply skipn_app_exact.
      * rewrite !app_length, repeat_length. unfold m. lia.
    + left. right.
      assert (Lz : exists z, overhead - j = S z) by (exists (overhead - j - 1); lia). destruct Lz as (z & Ez).
      replace (text ++ repeat " "%char j ++ zeros (overhead - j) ++ D)
        with ((text ++ repeat " "%char j ++ zeros (overhead - j)) ++ D) by (rewrite <- !app_assoc; auto).
      rewrite (read_region cap size8 m (text ++ repeat " "%char j ++ zeros (overhead - j)) D); auto.
      2:{ left. rewrite !app_length, repeat_length, zeros_length. unfold m. lia. }
      2:{ intros x Hx. rewrite !in_app_iff in Hx. destruct Hx as [Hx|[Hx|Hx]]; eauto. }
      assert (Hsp : strip (text ++ repeat " "%char j ++ zeros (overhead - j)) = text ++ repeat " "%char j ++ zeros (overhead - j)).
      { assert (Ezz : zeros (overhead - j) = zeros z ++ [zero_byte]) by (rewrite Ez; unfold zeros; apply (repeat_cons z zero_byte)).
        destruct Hbrace as (q & ->). rewrite Ezz. rewrite <- app_comm_cons, !app_assoc. apply strip_id; reflexivity. }
      rewrite Hsp, Ez. change (zeros (S z)) with (nul :: zeros z).
      unfold text. rewrite json_loads_extra by auto. reflexivity.
Qed.
