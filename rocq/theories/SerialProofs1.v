(** Text-level lemmas for the recipe format: tokens, numbers, paths. *)
From Coq Require Import String Ascii List Bool Arith NArith ZArith Lia.
From Verif Require Import Base Dec Json PyStr ModelRecipe ModelSerial SpecRecipe.
Import ListNotations.
Open Scope string_scope.
Open Scope list_scope.
Open Scope nat_scope.

(** ** split and join *)
Lemma split_on_nonempty : forall sep l, split_on sep l <> [].
Proof. destruct l as [|c l]; simpl; [discriminate|]. destruct (Ascii.eqb c sep); [discriminate|]. destruct (split_on sep l); discriminate. Qed.

Lemma split_on_none : forall sep l, ~ In sep l -> split_on sep l = [l].
Proof.
  induction l as [|c l IH]; intros H; simpl; auto.
  destruct (Ascii.eqb_spec c sep) as [->|Hne]; [exfalso; apply H; left; auto|].
  rewrite IH by (intros X; apply H; right; auto). reflexivity.
Qed.

Lemma split_on_app : forall sep a b, ~ In sep a -> split_on sep (a ++ sep :: b) = a :: split_on sep b.
Proof.
  induction a as [|c a IH]; intros b H; simpl.
  - rewrite Ascii.eqb_refl. auto.
  - destruct (Ascii.eqb_spec c sep) as [->|Hne]; [exfalso; apply H; left; auto|].
    rewrite IH by (intros X; apply H; right; auto). reflexivity.
Qed.

Lemma split_join : forall sep ps, ps <> [] -> (forall p, In p ps -> ~ In sep p) ->
  split_on sep (join [sep] ps) = ps.
Proof.
  induction ps as [|p ps IH]; intros Hne H; [congruence|].
  destruct ps as [|q ps].
  - simpl. apply split_on_none. apply H; left; auto.
  - change (join [sep] (p :: q :: ps)) with (p ++ sep :: join [sep] (q :: ps)).
    rewrite split_on_app by (apply H; left; auto). f_equal. apply IH; [discriminate|].
    intros x Hx; apply H; right; auto.
Qed.

Lemma split_on_parts : forall sep l p, In p (split_on sep l) -> ~ In sep p.
Proof.
  induction l as [|c l IH]; intros p; simpl.
  - intros [<-|[]] [].
  - destruct (Ascii.eqb_spec c sep) as [->|Hne].
    + intros [<-|H]; [intros []|apply IH; auto].
    + pose proof (split_on_nonempty sep l). destruct (split_on sep l) as [|q qs]; [congruence|].
      intros [<-|H']; [|apply IH; right; auto].
      intros [->|Hin]; [congruence|]. revert Hin. apply IH. left; auto.
Qed.

(** ** strip *)
Definition nospace (l : chars) : Prop := forall c, In c l -> py_isspace c = false.

Lemma strip_nospace : forall l, nospace l -> strip l = l.
Proof.
  intros l H. unfold strip.
  assert (L : forall l, nospace l -> lstrip l = l).
  { intros [|c l'] Hl; auto. apply lstrip_head. apply Hl. left; auto. }
  rewrite L by auto. unfold rstrip. rewrite L, rev_involutive; auto.
  intros c Hc. apply H. apply in_rev; auto.
Qed.

Lemma strip_ends : forall c l d, py_isspace c = false -> py_isspace d = false ->
  forall m, m = c :: l -> (exists u, m = u ++ [d]) -> strip m = m.
Proof.
  intros c l d Hc Hd m E (u & Em). unfold strip. rewrite E, lstrip_head, <- E by auto. rewrite Em. apply rstrip_last; auto.
Qed.

(** ** tokens *)
Definition plain (l : chars) : Prop := forall c, In c l -> c <> " "%char /\ c <> c_quote /\ c <> c_bslash.

Lemma tok_run_app : forall s a b, tok_run s (a ++ b) = tok_run (tok_run s a) b.
Proof. intros; unfold tok_run; apply fold_left_app. Qed.

Lemma tok_plain : forall w toks cur pre, plain w ->
  tok_run (TK toks cur pre false false) w = TK toks (cur ++ w) pre false false.
Proof.
  induction w as [|c w IH]; intros toks cur pre H; [simpl; rewrite app_nil_r; auto|].
  destruct (H c (or_introl eq_refl)) as (H1 & H2 & H3).
  unfold tok_run. simpl fold_left. unfold tok_step at 2. simpl.
  destruct (Ascii.eqb_spec c c_bslash); [congruence|]. destruct (Ascii.eqb_spec c c_quote); [congruence|].
  destruct (Ascii.eqb_spec c " "%char); [congruence|]. simpl.
  fold (tok_run (TK toks (cur ++ [c]) pre false false) w). rewrite IH by (intros x Hx; apply H; right; auto).
  rewrite <- app_assoc. reflexivity.
Qed.

Lemma tok_escaped : forall l toks cur pre,
  tok_run (TK toks cur pre true false) (flat_map escape1 l) = TK toks (cur ++ l) pre true false.
Proof.
  induction l as [|c l IH]; intros toks cur pre; [simpl; rewrite app_nil_r; auto|].
  cbn [flat_map]. rewrite tok_run_app.
  assert (E : tok_run (TK toks cur pre true false) (escape1 c) = TK toks (cur ++ [c]) pre true false).
  { unfold escape1. destruct (Ascii.eqb_spec c c_bslash) as [->|H1]; [reflexivity|].
    destruct (Ascii.eqb_spec c c_quote) as [->|H2]; [reflexivity|].
    unfold tok_run. simpl. unfold tok_step. simpl.
    destruct (Ascii.eqb_spec c c_bslash); [congruence|]. destruct (Ascii.eqb_spec c c_quote); [congruence|].
    rewrite andb_false_r. reflexivity. }
  rewrite E, IH, <- app_assoc. reflexivity.
Qed.

Definition raw_quoted (s : string) : chars := c_quote :: s2l s ++ [c_quote].

Lemma tok_quoted : forall s toks cur,
  tok_run (TK toks cur [] false false) (quoted s) = TK (toks ++ [cur ++ raw_quoted s]) [] [] false false.
Proof.
  intros s toks cur. unfold quoted.
  change (c_quote :: flat_map escape1 (s2l s) ++ [c_quote]) with ([c_quote] ++ flat_map escape1 (s2l s) ++ [c_quote]).
  rewrite !tok_run_app.
  assert (E : tok_run (TK toks cur [] false false) [c_quote] = TK toks [] cur true false) by reflexivity.
  rewrite E, tok_escaped. reflexivity.
Qed.

(** the text [t] is read as the single token [w] *)
Definition tok_word (t w : chars) : Prop := forall toks,
  let st := tok_run (TK toks [] [] false false) t in
  k_inq st = false /\ k_esc st = false /\ k_pre st = [] /\
  k_toks st ++ match k_cur st with [] => [] | c => [c] end = toks ++ [w].

Lemma tok_word_space : forall t w toks, tok_word t w ->
  tok_run (TK toks [] [] false false) (t ++ sp1) = TK (toks ++ [w]) [] [] false false.
Proof.
  intros t w toks H. rewrite tok_run_app. destruct (H toks) as (H1 & H2 & H3 & H4).
  destruct (tok_run (TK toks [] [] false false) t) as [T C P Q E]. simpl in *. subst.
  unfold tok_run, sp1. simpl. unfold tok_step; simpl. destruct C as [|c C].
  - rewrite app_nil_r in H4. rewrite H4. reflexivity.
  - rewrite H4. reflexivity.
Qed.

Lemma tok_join : forall ts ws toks, ts <> [] -> Forall2 tok_word ts ws ->
  tok_end (tok_run (TK toks [] [] false false) (join sp1 ts)) = Ok (toks ++ ws).
Proof.
  induction ts as [|t ts IH]; intros ws toks Hne H; [congruence|].
  inversion H as [|? w ? ws' Hw Hws]; subst.
  destruct ts as [|t2 ts].
  - inversion Hws; subst. simpl join. destruct (Hw toks) as (H1 & H2 & H3 & H4).
    unfold tok_end. rewrite H1, H4. reflexivity.
  - change (join sp1 (t :: t2 :: ts)) with (t ++ sp1 ++ join sp1 (t2 :: ts)).
    rewrite app_assoc, tok_run_app, (tok_word_space t w) by auto.
    rewrite IH with (ws := ws'); auto; [|discriminate]. rewrite <- app_assoc. reflexivity.
Qed.

Lemma tokenize_join : forall ts ws, ts <> [] -> Forall2 tok_word ts ws -> tokenize (join sp1 ts) = Ok ws.
Proof. intros ts ws Hne H. unfold tokenize. rewrite (tok_join ts ws); auto. Qed.

Lemma tok_word_plain : forall w, plain w -> w <> [] -> tok_word w w.
Proof.
  intros w H Hne toks. rewrite tok_plain by auto. simpl. repeat split; auto. destruct w; [congruence|auto].
Qed.

Lemma tok_word_quoted : forall p s, plain p -> tok_word (p ++ quoted s) (p ++ raw_quoted s).
Proof.
  intros p s H toks. rewrite tok_run_app, tok_plain, tok_quoted by auto. simpl. repeat split; auto. rewrite app_nil_r; auto.
Qed.

(** text of a value: after any prefix [k=] it is one token; it does not end in a space *)
Definition vtext (t w : chars) : Prop :=
  (forall p, plain p -> tok_word (p ++ t) (p ++ w)) /\ exists u d, t = u ++ [d] /\ py_isspace d = false.

Lemma vtext_quoted : forall s, vtext (quoted s) (raw_quoted s).
Proof.
  intros s. split; [intros; apply tok_word_quoted; auto|].
  exists (c_quote :: flat_map escape1 (s2l s)), c_quote. split; reflexivity.
Qed.

Lemma vtext_plain : forall t, plain t -> nospace t -> t <> [] -> vtext t t.
Proof.
  intros t H Hs Hne. split.
  - intros p Hp. apply tok_word_plain.
    + intros c Hc. apply in_app_iff in Hc as [Hc|Hc]; auto.
    + intros X. apply app_eq_nil in X as (_ & X). auto.
  - destruct (exists_last Hne) as (u & d & E). exists u, d. split; auto. apply Hs. rewrite E. apply in_app_iff; right; left; auto.
Qed.

(** ** numbers *)
Definition num_char (c : ascii) : bool :=
  is_digit c || Ascii.eqb c "_"%char || Ascii.eqb c "."%char || is_e c || Ascii.eqb c "-"%char || Ascii.eqb c "+"%char.

Lemma num_char_ok : forall c, num_char c = true ->
  c <> " "%char /\ c <> c_quote /\ c <> c_bslash /\ c <> "="%char /\ c <> "&"%char /\ c <> "n"%char /\
  c <> "t"%char /\ c <> "f"%char /\ c <> c_nl /\ c <> "#"%char /\ py_isspace c = false.
Proof.
  intros c. destruct c as [[] [] [] [] [] [] [] []]; intros H; try discriminate H; repeat split; try discriminate; reflexivity.
Qed.

Lemma digit_num : forall c, is_digit c = true -> num_char c = true.
Proof. intros c H. unfold num_char. rewrite H. reflexivity. Qed.

Lemma more_digits_num : forall n l, length l <= n -> exists p, l = p ++ more_digits l /\ forallb num_char p = true.
Proof.
  induction n as [|n IH]; intros l Hl.
  - destruct l; [exists []; auto|simpl in Hl; lia].
  - destruct l as [|c l]; [exists []; auto|]. simpl in Hl.
    cbn [more_digits]. destruct (is_digit c) eqn:Ed.
    + destruct (IH l) as (p & E & Hp); [lia|]. exists (c :: p). split; [simpl; f_equal; auto|].
      simpl. rewrite digit_num, Hp; auto.
    + destruct (Ascii.eqb_spec c "_"%char) as [->|].
      * destruct l as [|d l]; [exists []; auto|]. destruct (is_digit d) eqn:Edd; [|exists []; auto].
        destruct (IH l) as (p & E & Hp); [simpl in Hl; lia|].
        exists ("_"%char :: d :: p). split; [simpl; do 2 f_equal; auto|]. simpl. rewrite digit_num, Hp; auto.
      * exists []; auto.
Qed.

Lemma digitpart_num : forall l r, digitpart l = Some r -> exists p, l = p ++ r /\ forallb num_char p = true /\ p <> [].
Proof.
  intros [|c l] r; simpl; [discriminate|]. destruct (is_digit c) eqn:Ed; [|discriminate]. intros H; inversion H; subst.
  destruct (more_digits_num (length l) l (le_n _)) as (p & E & Hp). exists (c :: p). repeat split.
  - simpl; f_equal; auto.
  - simpl. rewrite digit_num, Hp; auto.
  - discriminate.
Qed.

Lemma drop_sign_num : forall l, exists p, l = p ++ drop_sign l /\ forallb num_char p = true.
Proof.
  intros [|c l]; [exists []; auto|]. simpl.
  destruct (Ascii.eqb_spec c "-"%char) as [->|]; [exists ["-"%char]; auto|].
  destruct (Ascii.eqb_spec c "+"%char) as [->|]; [exists ["+"%char]; auto|]. exists []; auto.
Qed.

Lemma mantissa_num : forall l r, mantissa l = Some r -> exists p, l = p ++ r /\ forallb num_char p = true /\ p <> [].
Proof.
  intros l r H. unfold mantissa in H.
  destruct (digitpart l) as [q|] eqn:Ed.
  - destruct (digitpart_num _ _ Ed) as (p & E & Hp & Hne).
    assert (Hplain : q = r -> exists p0, l = p0 ++ r /\ forallb num_char p0 = true /\ p0 <> []) by (intros ->; eauto).
    destruct q as [|c q]; [inversion H; subst; auto|].
    destruct (ascii_dec c "."%char) as [->|Hc].
    + destruct (digitpart q) as [r'|] eqn:Eq.
      * destruct (digitpart_num _ _ Eq) as (p2 & E2 & Hp2 & _). inversion H; subst.
        exists (p ++ "."%char :: p2). repeat split.
        -- rewrite <- app_assoc. reflexivity.
        -- rewrite forallb_app. simpl. rewrite Hp, Hp2. reflexivity.
        -- destruct p; discriminate.
      * inversion H; subst. exists (p ++ ["."%char]). repeat split.
        -- rewrite <- app_assoc. reflexivity.
        -- rewrite forallb_app, Hp. reflexivity.
        -- destruct p; discriminate.
    + apply Hplain. destruct c as [[] [] [] [] [] [] [] []]; try congruence; inversion H; auto.
  - destruct l as [|c l]; [discriminate|].
    destruct (ascii_dec c "."%char) as [->|Hc].
    + destruct (digitpart_num _ _ H) as (p2 & E2 & Hp2 & _). exists ("."%char :: p2). repeat split.
      * simpl. f_equal; auto.
      * simpl. auto.
      * discriminate.
    + destruct c as [[] [] [] [] [] [] [] []]; try congruence; discriminate H.
Qed.

Lemma float_num : forall l, float_ok l = true -> forallb num_char l = true /\ l <> [].
Proof.
  intros l H. unfold float_ok in H. destruct (drop_sign_num l) as (p0 & E0 & H0).
  destruct (mantissa (drop_sign l)) as [r|] eqn:Em; [|discriminate].
  destruct (mantissa_num _ _ Em) as (p1 & E1 & H1 & Hne).
  assert (Hl : l = p0 ++ p1 ++ r) by (rewrite <- E1; auto).
  assert (Hr : forallb num_char r = true).
  { destruct r as [|c r]; auto. apply andb_true_iff in H as (Hc & H).
    destruct (drop_sign_num r) as (p2 & E2 & H2).
    destruct (digitpart (drop_sign r)) as [[|]|] eqn:Ed; try discriminate.
    destruct (digitpart_num _ _ Ed) as (p3 & E3 & H3 & _). rewrite app_nil_r in E3.
    simpl. rewrite E2, E3, forallb_app, H2, H3. unfold num_char. rewrite Hc. rewrite !orb_true_r. reflexivity. }
  split.
  - rewrite Hl, !forallb_app, H0, H1, Hr. reflexivity.
  - rewrite Hl. destruct p1; [congruence|]. destruct p0; discriminate.
Qed.

Lemma num_plain : forall l, forallb num_char l = true -> plain l.
Proof. intros l H c Hc. rewrite forallb_forall in H. destruct (num_char_ok c (H _ Hc)); tauto. Qed.
Lemma num_nospace : forall l, forallb num_char l = true -> nospace l.
Proof. intros l H c Hc. rewrite forallb_forall in H. destruct (num_char_ok c (H _ Hc)); tauto. Qed.

Lemma more_digits_all : forall l, forallb is_digit l = true -> more_digits l = [].
Proof. induction l as [|c l IH]; simpl; auto. intros H. apply andb_true_iff in H as (-> & H). auto. Qed.

Lemma filter_all : forall A (f : A -> bool) l, forallb f l = true -> filter f l = l.
Proof. induction l as [|c l IH]; simpl; auto. intros H. apply andb_true_iff in H as (-> & H). f_equal; auto. Qed.

Lemma dec_all_digits : forall n, forallb is_digit (dec n) = true.
Proof. intros n. apply forallb_forall. apply dec_digits. Qed.

Lemma digit_not_sign : forall c, is_digit c = true -> Ascii.eqb c "-"%char || Ascii.eqb c "+"%char = false.
Proof. intros c. destruct c as [[] [] [] [] [] [] [] []]; intros H; try discriminate H; reflexivity. Qed.

Lemma py_int_dec : forall n, py_int (dec n) = Ok (Z.of_N n).
Proof.
  intros n. unfold py_int.
  pose proof (dec_all_digits n) as H. pose proof (dec_nonempty n) as Hne. pose proof (undec_dec n) as U.
  rewrite strip_nospace.
  2: { intros c Hc. rewrite forallb_forall in H. apply num_char_ok. apply digit_num; auto. }
  destruct (dec n) as [|c l]; [congruence|]. simpl in H. apply andb_true_iff in H as (H1 & H2).
  assert (D : drop_sign (c :: l) = c :: l) by (simpl; rewrite digit_not_sign; auto).
  rewrite D. unfold digitpart. rewrite H1, more_digits_all by auto.
  rewrite filter_all by (simpl; rewrite H1, H2; auto). rewrite U.
  f_equal. destruct (ascii_dec c "-"%char) as [->|Hc]; [discriminate H1|].
  destruct c as [[] [] [] [] [] [] [] []]; try congruence; reflexivity.
Qed.

Lemma py_int_decZ : forall z, py_int (dec_Z z) = Ok z.
Proof.
  intros [|p|p]; unfold dec_Z; try (rewrite py_int_dec; reflexivity).
  unfold py_int.
  pose proof (dec_all_digits (Npos p)) as H. pose proof (dec_nonempty (Npos p)) as Hne. pose proof (undec_dec (Npos p)) as U.
  rewrite strip_nospace.
  2: { intros c [<-|Hc]; [reflexivity|]. rewrite forallb_forall in H. apply num_char_ok. apply digit_num; auto. }
  assert (D : drop_sign ("-"%char :: dec (Npos p)) = dec (Npos p)) by reflexivity.
  rewrite D, filter_all, U by auto.
  destruct (dec (N.pos p)) as [|c l]; [congruence|]. simpl in H. apply andb_true_iff in H as (H1 & H2).
  unfold digitpart. rewrite H1, more_digits_all by auto. reflexivity.
Qed.

Lemma decZ_num : forall z, forallb num_char (dec_Z z) = true /\ dec_Z z <> [].
Proof.
  assert (G : forall n, forallb num_char (dec n) = true).
  { intros n. apply forallb_forall. intros c Hc. apply digit_num. apply (dec_digits n); auto. }
  intros [|p|p]; unfold dec_Z; (split; [cbn [forallb]; rewrite ?G; reflexivity|]); [apply dec_nonempty|apply dec_nonempty|discriminate].
Qed.

Lemma decZ_not_float : forall z, has_char "."%char (dec_Z z) || existsb is_e (dec_Z z) = false.
Proof.
  assert (G : forall n, has_char "."%char (dec n) = false /\ existsb is_e (dec n) = false).
  { intros n. pose proof (dec_digits n) as H. induction (dec n) as [|c l IH]; [auto|].
    destruct IH as (I1 & I2); [intros; apply H; right; auto|].
    assert (D : is_digit c = true) by (apply H; left; auto).
    unfold has_char in *. cbn [existsb]. rewrite I1, I2. clear -D.
    destruct c as [[] [] [] [] [] [] [] []]; try discriminate D; auto. }
  intros [|p|p]; unfold dec_Z; try (destruct (G 0%N) as (-> & ->); reflexivity);
  destruct (G (Npos p)) as (H1 & H2); unfold has_char in *; cbn [existsb]; rewrite H1, H2; reflexivity.
Qed.

(** ** argument tokens *)
Lemma constant_num : forall l, forallb num_char l = true -> l <> [] -> constant l = None.
Proof.
  intros [|c l] H Hne; [congruence|]. simpl in H. apply andb_true_iff in H as (H & _).
  destruct (num_char_ok c H) as (_ & _ & _ & _ & _ & Hn & Ht & Hf & _).
  unfold constant. simpl s2l. repeat (destruct (list_eq_dec _ _ _); [congruence|]). reflexivity.
Qed.

Lemma num_not_special : forall l, forallb num_char l = true ->
  starts_with ["&"%char] l = false /\ starts_with [c_quote] l = false.
Proof.
  intros [|c l] H; [auto|]. simpl in H. apply andb_true_iff in H as (H & _).
  destruct (num_char_ok c H) as (_ & Hq & _ & _ & Ha & _).
  cbn [starts_with]. destruct (Ascii.eqb_spec "&"%char c); [congruence|]. destruct (Ascii.eqb_spec c_quote c); [congruence|]. auto.
Qed.

Lemma arg_int : forall R z, get_arg_value R (dec_Z z) = Ok (VInt z).
Proof.
  intros R z. destruct (decZ_num z) as (H & Hne). unfold get_arg_value. rewrite constant_num by auto.
  destruct (num_not_special _ H) as (-> & ->). simpl andb. cbv iota. rewrite decZ_not_float, py_int_decZ. reflexivity.
Qed.

Lemma arg_float : forall R s, float_repr s -> get_arg_value R (s2l s) = Ok (VFloat s).
Proof.
  intros R s (H & He). destruct (float_num _ H) as (Hn & Hne). unfold get_arg_value. rewrite constant_num by auto.
  destruct (num_not_special _ Hn) as (-> & ->). simpl andb. cbv iota. rewrite He. unfold py_float.
  rewrite strip_nospace by (apply num_nospace; auto). rewrite H, l2s_s2l. reflexivity.
Qed.

Lemma arg_null : forall R, get_arg_value R (s2l "null") = Ok VNone.
Proof. reflexivity. Qed.

Lemma arg_str : forall R s, get_arg_value R (raw_quoted s) = Ok (VStr s).
Proof.
  intros R s. unfold get_arg_value, raw_quoted.
  assert (C : constant (c_quote :: s2l s ++ [c_quote]) = None).
  { unfold constant. simpl s2l at 2 4 6. repeat (destruct (list_eq_dec _ _ _); [discriminate|]). reflexivity. }
  rewrite C. change (starts_with ["&"%char] (c_quote :: s2l s ++ [c_quote])) with false.
  assert (W : starts_with [c_quote] (c_quote :: s2l s ++ [c_quote]) && ends_with [c_quote] (c_quote :: s2l s ++ [c_quote]) = true).
  { apply andb_true_iff. split; [reflexivity|]. unfold ends_with. rewrite app_comm_cons, rev_app_distr. reflexivity. }
  rewrite W. simpl tl. rewrite removelast_last, l2s_s2l. reflexivity.
Qed.

Definition ref_text (i : nat) : chars := "&"%char :: dec (N.of_nat i).

Lemma arg_ref : forall R i v, nth_error R i = Some v -> get_arg_value R (ref_text i) = Ok v.
Proof.
  intros R i v H. unfold get_arg_value, ref_text.
  assert (C : constant ("&"%char :: dec (N.of_nat i)) = None).
  { unfold constant. simpl s2l. repeat (destruct (list_eq_dec _ _ _); [discriminate|]). reflexivity. }
  rewrite C. change (starts_with ["&"%char] ("&"%char :: dec (N.of_nat i))) with true. cbv iota.
  simpl tl. rewrite py_int_dec. cbn [bind].
  assert (L : i < length R) by (apply nth_error_Some; congruence).
  replace (Z.of_N (N.of_nat i)) with (Z.of_nat i) by lia.
  destruct (Z.ltb_spec (Z.of_nat i) 0); [lia|]. destruct (Z.leb_spec (Z.of_nat (length R)) (Z.of_nat i)); [lia|].
  simpl orb. cbv iota. rewrite Nat2Z.id, H. reflexivity.
Qed.

Lemma ref_plain : forall i, plain (ref_text i) /\ nospace (ref_text i) /\ ref_text i <> [] /\ ~ In "="%char (ref_text i) /\ ~ In c_nl (ref_text i).
Proof.
  intros i. assert (H : forall c, In c (dec (N.of_nat i)) -> num_char c = true).
  { intros c Hc. apply digit_num. apply (dec_digits _ _ Hc). }
  unfold ref_text. repeat split; try discriminate.
  - destruct H0 as [<-|Hc]; [discriminate|]. destruct (num_char_ok c (H c Hc)); tauto.
  - destruct H0 as [<-|Hc]; [discriminate|]. destruct (num_char_ok c (H c Hc)); tauto.
  - destruct H0 as [<-|Hc]; [discriminate|]. destruct (num_char_ok c (H c Hc)); tauto.
  - intros c [<-|Hc]; [reflexivity|]. destruct (num_char_ok c (H c Hc)); tauto.
  - intros [E|Hc]; [discriminate|]. destruct (num_char_ok _ (H _ Hc)); tauto.
  - intros [E|Hc]; [discriminate|]. destruct (num_char_ok _ (H _ Hc)); tauto.
Qed.

Lemma split_eq_key : forall k w, ~ In "="%char k -> split_eq (k ++ "="%char :: w) = (k, w).
Proof.
  induction k as [|c k IH]; intros w H; [reflexivity|]. simpl.
  destruct (Ascii.eqb_spec c "="%char) as [->|]; [exfalso; apply H; left; auto|].
  rewrite IH by (intros X; apply H; right; auto). reflexivity.
Qed.

(** ** monotonicity in the results *)
Lemma get_arg_value_mono : forall R S a v, get_arg_value R a = Ok v -> get_arg_value (R ++ S) a = Ok v.
Proof.
  intros R S a v. unfold get_arg_value. destruct (constant a); auto.
  destruct (starts_with ["&"%char] a); auto.
  destruct (py_int (tl a)) as [z|]; simpl; [|discriminate].
  rewrite app_length.
  destruct (Z.ltb_spec z 0); simpl; [discriminate|].
  destruct (Z.leb_spec (Z.of_nat (length R)) z); simpl; [discriminate|].
  destruct (Z.leb_spec (Z.of_nat (length R + length S)) z); [lia|].
  destruct (nth_error R (Z.to_nat z)) eqn:E; [|discriminate].
  rewrite nth_error_app1, E; auto. lia.
Qed.

Lemma preprocess_mono : forall R S args pos kw r, preprocess R args pos kw = Ok r -> preprocess (R ++ S) args pos kw = Ok r.
Proof.
  induction args as [|a args IH]; intros pos kw r; simpl; auto.
  destruct (has_char "="%char a); intros H; apply bind_Ok in H as (v & Hv & H);
    rewrite (get_arg_value_mono _ _ _ _ Hv); simpl; auto.
Qed.

Lemma parse_line_mono : forall E R S l o, parse_line E R l = Ok o -> parse_line E (R ++ S) l = Ok o.
Proof.
  intros E R S l o. unfold parse_line. destruct (starts_with ["#"%char] (strip l)); auto.
  destruct (tokenize (strip l)) as [[|c args]|]; simpl; auto.
  intros H. apply bind_Ok in H as (pk & Hp & H). rewrite (preprocess_mono _ _ _ _ _ _ Hp). exact H.
Qed.

Lemma run_lines_app : forall E a b R, run_lines E R (a ++ b) = let* R' := run_lines E R a in run_lines E R' b.
Proof.
  induction a as [|l a IH]; intros b R; simpl; auto.
  destruct (parse_line E R l) as [o|]; simpl; auto.
Qed.

Lemma run_lines_prefix : forall E ls R R', run_lines E R ls = Ok R' -> exists S, R' = R ++ S /\ length S <= length ls.
Proof.
  induction ls as [|l ls IH]; intros R R' H; simpl in H.
  - inversion H; subst. exists []. rewrite app_nil_r; auto.
  - apply bind_Ok in H as (o & Ho & H). destruct (IH _ _ H) as (S & -> & HS).
    destruct o as [v|]; [exists (v :: S); rewrite <- app_assoc; simpl; split; auto; lia|exists S; simpl; split; auto].
Qed.

Lemma run_lines_nth : forall E ls R R', run_lines E R ls = Ok R' -> length R' = length R + length ls ->
  forall i l, nth_error ls i = Some l ->
  exists w, parse_line E (firstn (length R + i) R') l = Ok (Some w) /\ nth_error R' (length R + i) = Some w.
Proof.
  induction ls as [|l0 ls IH]; intros R R' H Hl i l Hi; [destruct i; discriminate|].
  simpl in H. apply bind_Ok in H as (o & Ho & H). simpl in Hl.
  destruct (run_lines_prefix _ _ _ _ H) as (S & -> & HS).
  destruct o as [v|]; [|rewrite app_length in Hl; lia].
  destruct i as [|i].
  - inversion Hi; subst. exists v. rewrite Nat.add_0_r, <- app_assoc, firstn_app_exact. split; auto.
    rewrite nth_error_app2, Nat.sub_diag by lia. reflexivity.
  - destruct (IH _ _ H) with (i := i) (l := l) as (w & W1 & W2); auto.
    + rewrite !app_length in *. simpl in *. lia.
    + rewrite app_length in W1, W2. simpl in W1, W2. replace (length R + 1 + i) with (length R + Datatypes.S i) in * by lia. eauto.
Qed.
