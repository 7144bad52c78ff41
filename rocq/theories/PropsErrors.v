(** More of C03 and C91: which exceptions the text format raises, and which recipes have no text. *)
From Coq Require Import String Ascii List Bool Arith NArith ZArith Lia.
From Verif Require Import Base Dec Json PyStr ModelRecipe ModelSerial SpecRecipe SerialProofs3 PropsSerial ModelMerge PropsHand.
Import ListNotations.
Open Scope string_scope.
Open Scope list_scope.
Open Scope nat_scope.

(** ** C91: a recipe has a text unless it holds a tensor or a path *)
Definition writable (v : pyobj) : Prop := match v with VTensor _ | VPath _ => False | _ => True end.

Definition told (v : pyobj) : Prop := forall I,
  (every writable v /\ exists r, ser v I = Ok r) \/ (~ every writable v /\ ser v I = Err TypeError).
Lemma told_list : forall l, Forall told l -> forall I,
  (all_in (every writable) l /\ exists r, ser_list ser l I = Ok r) \/ (~ all_in (every writable) l /\ ser_list ser l I = Err TypeError).
Proof.
  induction 1 as [|v l Hv Hl IH]; intro I; cbn [ser_list all_in]; [left; eauto|].
  destruct (Hv I) as [(A & (t & I1) & ->)|(A & ->)]; cbn [bind fst snd]; [|right; split; [tauto|reflexivity]].
  destruct (IH I1) as [(B & (ts & I2) & ->)|(B & ->)]; cbn [bind]; [left; split; eauto|right; split; [tauto|reflexivity]].
Qed.
Lemma told_kws : forall l, Forall (fun kv => told (snd kv)) l -> forall I,
  (all_kin (every writable) l /\ exists r, ser_kws ser l I = Ok r) \/ (~ all_kin (every writable) l /\ ser_kws ser l I = Err TypeError).
Proof.
  induction 1 as [|[k v] l Hv Hl IH]; intro I; cbn [ser_kws all_kin]; [left; eauto|]. cbn [snd] in Hv.
  destruct (Hv I) as [(A & (t & I1) & ->)|(A & ->)]; cbn [bind fst snd]; [|right; split; [tauto|reflexivity]].
  destruct (IH I1) as [(B & (ts & I2) & ->)|(B & ->)]; cbn [bind]; [left; split; eauto|right; split; [tauto|reflexivity]].
Qed.
Lemma ser_told : forall v, told v.
Proof.
  induction v as [s|z|s|b| |i|p|l Hl|w c s Hw|p c s|m args kw Ha Hk] using pyobj_rect'; intro I;
    cbn [ser every writable]; try (left; split; [tauto|eauto]; fail); try (right; split; [tauto|reflexivity]).
  - destruct (told_kws l Hl I) as [(A & (ts & I1) & ->)|(A & ->)]; cbn [bind]; [left; split; eauto|right; split; [tauto|reflexivity]].
  - destruct (Hw I) as [(A & (t & I1) & E)|(A & E)]; destruct c; rewrite E; cbn [bind];
      [left; split; eauto|left; split; eauto|right; split; [tauto|reflexivity]|right; split; [tauto|reflexivity]].
  - destruct (told_list args Ha I) as [(A & (ts & I1) & ->)|(A & ->)]; cbn [bind fst snd]; [|right; split; [tauto|reflexivity]].
    destruct (told_kws kw Hk I1) as [(B & (ks & I2) & ->)|(B & ->)]; cbn [bind]; [left; split; eauto|right; split; [tauto|reflexivity]].
Qed.

(** serialize succeeds exactly if the recipe holds no tensor and no path; otherwise it raises TypeError, and a merge
    to a file writes no recipe, but is not hindered. *)
Theorem C91_text : forall v,
  (every writable v -> exists t, serialize v = Ok t /\ embedded_text (serialize v) = Ok (Some t)) /\
  (~ every writable v -> serialize v = Err TypeError /\ embedded_text (serialize v) = Ok None).
Proof.
  intro v. unfold serialize. destruct (ser_told v []) as [(A & (t & I) & ->)|(A & ->)]; cbn [bind]; split; intro H; try contradiction.
  - eexists. split; reflexivity.
  - split; reflexivity.
Qed.
Print Assumptions C91_text.
Example C91_text_applies :
  every writable r1 /\ ~ every writable (VLit (VDict [("k", VTensor 0)]) (Some "sd1") "weight") /\
  embedded_text (serialize (VLit (VDict [("k", VTensor 0)]) (Some "sd1") "weight")) = Ok None.
Proof. split; [|split; [|reflexivity]]; cbn; tauto. Qed.

(** ** C03: a word that stands for nothing raises ValueError *)

(** the words that stand for a value *)
Definition means (R : list pyobj) (w : chars) (v : pyobj) : Prop := get_arg_value R w = Ok v.
Lemma word_error : forall R w e, get_arg_value R w = Err e -> e = ValueError.
Proof.
  intros R w e. unfold get_arg_value. destruct (constant w); [discriminate|].
  assert (PI : forall x e', py_int x = Err e' -> e' = ValueError).
  { intros x e'. unfold py_int. destruct (digitpart _) as [[|]|]; try discriminate; intro H; injection H as <-; reflexivity. }
  destruct (starts_with _ w).
  - destruct (py_int (tl w)) as [z|e'] eqn:E; cbn [bind].
    + destruct (_ || _); [intro H; injection H as <-; reflexivity|]. destruct (nth_error _ _); [discriminate|]. intro H; injection H as <-; reflexivity.
    + intro H; injection H as <-. exact (PI _ _ E).
  - destruct (starts_with _ w && _); [discriminate|]. destruct (_ || _).
    + unfold py_float. destruct (float_ok _); [discriminate|]. intro H; injection H as <-; reflexivity.
    + destruct (py_int w) as [z|e'] eqn:E; cbn [bind]; [discriminate|]. intro H; injection H as <-. exact (PI _ _ E).
Qed.
Lemma preprocess_error : forall R args pos kw e, preprocess R args pos kw = Err e -> e = ValueError.
Proof.
  induction args as [|a args IH]; intros pos kw e; cbn [preprocess]; [discriminate|].
  destruct (has_char _ a).
  - destruct (get_arg_value R (snd (split_eq a))) eqn:E; cbn [bind]; [apply IH|]. intro H; injection H as <-. exact (word_error _ _ _ E).
  - destruct (get_arg_value R a) eqn:E; cbn [bind]; [apply IH|]. intro H; injection H as <-. exact (word_error _ _ _ E).
Qed.
Lemma preprocess_bad : forall R args pos kw a, In a args ->
  (forall v, ~ means R (if has_char "="%char a then snd (split_eq a) else a) v) -> exists e, preprocess R args pos kw = Err e.
Proof.
  induction args as [|b args IH]; intros pos kw a I B; [destruct I|]. cbn [preprocess]. destruct I as [->|I].
  - unfold means in B. destruct (has_char _ a); (destruct (get_arg_value R _) as [v|e] eqn:E; cbn [bind]; [exfalso; exact (B v eq_refl)|eauto]).
  - destruct (has_char _ b); (destruct (get_arg_value R _) as [v|e] eqn:E; cbn [bind]; [eapply IH; eauto|eauto]).
Qed.

(** In any line after lines that can be read, one word that stands for no value makes deserialize raise ValueError,
    whatever the command and the other words are, and whatever follows. *)
Theorem C03_bad_word : forall E before line after R command words w,
  run_lines E [] before = Ok R -> starts_with ["#"%char] (strip line) = false -> tokenize (strip line) = Ok (command :: words) ->
  In w words -> (forall v, ~ means R (if has_char "="%char w then snd (split_eq w) else w) v) ->
  deserialize_lines E (s2l "version 0.1.0" :: before ++ line :: after) = Err ValueError.
Proof.
  intros E before line after R command words w RB C T I B. cbn [deserialize_lines].
  replace (starts_with (s2l "version") (s2l "version 0.1.0")) with true by reflexivity. cbn [negb].
  destruct (list_eq_dec ascii_dec (s2l "version 0.1.0") version_header) as [_|N]; [|exfalso; apply N; reflexivity].
  assert (X : run_lines E [] (before ++ line :: after) = Err ValueError); [|rewrite X; reflexivity].
  assert (P : parse_line E R line = Err ValueError).
  { unfold parse_line. rewrite C, T. cbn [bind]. destruct (preprocess_bad R words [] [] w I B) as (e & P).
    rewrite P. cbn [bind]. rewrite (preprocess_error _ _ _ _ _ P). reflexivity. }
  assert (A : forall l R0, run_lines E R0 l = Ok R -> run_lines E R0 (l ++ line :: after) = Err ValueError).
  { induction l as [|x l IH]; intros R0 H; cbn [app run_lines] in *.
    - injection H as ->. rewrite P. reflexivity.
    - destruct (parse_line E R0 x); cbn [bind] in *; [apply IH; exact H|discriminate]. }
  apply A. exact RB.
Qed.
Print Assumptions C03_bad_word.
Example C03_bad_word_applies :
  let text := [s2l "version 0.1.0"; s2l "model ""a"""; s2l "merge ""mix"" &0 &0 alpha=0.5x"] in
  deserialize_lines E0 text = Err ValueError /\ (forall v, ~ means [mdl "a"] (s2l "0.5x") v) /\
  deserialize_lines E0 [s2l "version 0.1.0"; s2l "model ""a"""; s2l "merge ""mix"" &0 &1"] = Err ValueError /\
  deserialize_lines E0 [s2l "version 0.1.0"; s2l "model ""a"""; s2l "merge ""mix"" &0 &0 1E3x"] = Err ValueError.
Proof. repeat split; try (vm_compute; reflexivity). intros v H. vm_compute in H. discriminate. Qed.

(** ** C71: no empty lines *)

(** A line of nothing but white space raises, wherever it is: ValueError if the lines before it can be read. *)
Theorem C71_blank_line : forall E before pad after,
  blank pad -> (forall l, In l (before ++ pad :: after) -> ~ In c_nl l) ->
  deserialize E (recipe_text (before ++ pad :: after)) = (let* _ := run_lines E [] before in Err ValueError).
Proof.
  intros E before pad after B N. rewrite deser_text by exact N. rewrite run_lines_app.
  destruct (run_lines E [] before) as [R|e]; cbn [bind]; auto. cbn [run_lines].
  replace (parse_line E R pad) with (@Err (option pyobj) ValueError); [reflexivity|].
  unfold parse_line. assert (S : strip pad = []).
  { pose proof (strip_pad pad [] [] B) as S. cbn [app] in S. rewrite app_nil_r in S. rewrite S by (intros c []). reflexivity. }
  rewrite S. reflexivity.
Qed.
Print Assumptions C71_blank_line.
Example C71_blank_line_applies :
  deserialize E0 (recipe_text [s2l "model ""a"""; s2l "  "; s2l "model ""b"""]) = Err ValueError /\
  deserialize E0 (recipe_text [s2l "model ""a"""; s2l "# "; s2l "model ""b"""]) = Ok (mdl "b").
Proof. split; vm_compute; reflexivity. Qed.
