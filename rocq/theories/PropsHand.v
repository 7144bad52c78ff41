(** C71: recipes written by hand.  Read with ModelSerial.v. *)
From Coq Require Import String Ascii List Bool Arith NArith ZArith Lia.
From Verif Require Import Base Dec Json PyStr ModelRecipe ModelSerial SpecRecipe SerialProofs1 SerialProofs2 SerialProofs3.
Import ListNotations.
Open Scope string_scope.
Open Scope list_scope.
Open Scope nat_scope.

Definition blank (l : chars) : Prop := forall c, In c l -> py_isspace c = true.
(** a line whose first visible character is # *)
Definition comment_line (l : chars) : Prop := exists pad rest, blank pad /\ l = pad ++ "#"%char :: rest.
(** the text of a recipe: the version line and the lines after it *)
Definition recipe_text (lines : list chars) : chars := join [c_nl] (s2l "version 0.1.0" :: lines).

Lemma lstrip_blank : forall p l, blank p -> lstrip (p ++ l) = lstrip l.
Proof.
  induction p as [|c p IH]; intros l H; simpl; auto. rewrite (H c) by (left; auto). apply IH. intros x Hx; apply H; right; auto.
Qed.
Lemma rstrip_blank : forall l p, blank p -> rstrip (l ++ p) = rstrip l.
Proof.
  intros l p H. unfold rstrip. rewrite rev_app_distr, lstrip_blank; auto. intros c Hc. apply H. apply in_rev; auto.
Qed.
Lemma lstrip_rev_visible : forall l c r, lstrip (rev (c :: l)) = r -> py_isspace c = false -> exists u, r = u ++ [c].
Proof.
  intros l c r <- H. simpl. revert l.
  assert (G : forall l, exists u, lstrip (l ++ [c]) = u ++ [c]).
  { induction l as [|d l (u & IH)]; simpl; [rewrite H; exists []; auto|].
    destruct (py_isspace d); [eauto|]. exists (d :: l); auto. }
  intros l. apply G.
Qed.
Lemma strip_comment : forall pad rest, blank pad -> starts_with ["#"%char] (strip (pad ++ "#"%char :: rest)) = true.
Proof.
  intros pad rest H. unfold strip. rewrite lstrip_blank by auto. rewrite lstrip_head by reflexivity. unfold rstrip.
  destruct (lstrip_rev_visible rest "#"%char _ eq_refl eq_refl) as (u & ->). rewrite rev_app_distr. reflexivity.
Qed.
Lemma strip_pad : forall a l b, blank a -> blank b -> strip (a ++ l ++ b) = strip l.
Proof.
  intros a l b Ha Hb. unfold strip. rewrite lstrip_blank by auto.
  (* trailing blanks survive lstrip unless the line is blank *)
  assert (G : forall l0, lstrip (l0 ++ b) = lstrip l0 ++ b \/ (lstrip l0 = [] /\ lstrip (l0 ++ b) = lstrip b)).
  { induction l0 as [|c m IH]; simpl; [right; auto|]. destruct (py_isspace c); auto. }
  destruct (G l) as [->|(E & ->)]; [apply rstrip_blank; auto|].
  rewrite E. replace (lstrip b) with (@nil ascii); [reflexivity|].
  symmetry. rewrite <- (app_nil_r b), lstrip_blank; auto.
Qed.

Lemma run_lines_app : forall E l1 l2 R, run_lines E R (l1 ++ l2) = let* R' := run_lines E R l1 in run_lines E R' l2.
Proof.
  intros E; induction l1 as [|l l1 IH]; intros l2 R; cbn [app run_lines bind]; auto.
  destruct (parse_line E R l); cbn [bind]; auto.
Qed.
Lemma deser_text : forall E lines, (forall l, In l lines -> ~ In c_nl l) ->
  deserialize E (recipe_text lines) = let* R := run_lines E [] lines in last_result R.
Proof.
  intros E lines H. unfold deserialize, recipe_text. rewrite split_join.
  - reflexivity.
  - discriminate.
  - intros p [<-|Hp]; auto. simpl. intros X. repeat (destruct X as [X|X]; [discriminate|]). destruct X.
Qed.

(** Comments can be inserted anywhere, without renumbering the references. *)
Theorem C71_comments : forall E before c after, comment_line c ->
  (forall l, In l (before ++ c :: after) -> ~ In c_nl l) ->
  deserialize E (recipe_text (before ++ c :: after)) = deserialize E (recipe_text (before ++ after)).
Proof.
  intros E before c after (pad & rest & Hp & ->) H. rewrite !deser_text; auto.
  - rewrite !run_lines_app. destruct (run_lines E [] before) as [R|e]; cbn [bind]; auto.
    cbn [run_lines]. unfold parse_line at 1. rewrite strip_comment by auto. reflexivity.
  - intros l Hl. apply H. apply in_app_iff in Hl as [Hl|Hl]; apply in_app_iff; auto. right; right; auto.
Qed.

(** White space around a line does not matter. *)
Theorem C71_padding : forall E before a l b after, blank a -> blank b ->
  (forall x, In x (before ++ (a ++ l ++ b) :: after) -> ~ In c_nl x) ->
  deserialize E (recipe_text (before ++ (a ++ l ++ b) :: after)) = deserialize E (recipe_text (before ++ l :: after)).
Proof.
  intros E before a l b after Ha Hb H. rewrite !deser_text; auto.
  - rewrite !run_lines_app. destruct (run_lines E [] before) as [R|e]; cbn [bind]; auto.
    cbn [run_lines]. unfold parse_line. rewrite strip_pad by auto. reflexivity.
  - intros x Hx N. apply in_app_iff in Hx as [Hx|[<-|Hx]].
    + apply (H x); auto. apply in_app_iff; auto.
    + apply (H (a ++ l ++ b)); [apply in_app_iff; right; left; auto|]. apply in_app_iff; right; apply in_app_iff; auto.
    + apply (H x); auto. apply in_app_iff; right; right; auto.
Qed.

(** Any other version line raises, whatever follows. *)
Theorem C71_version : forall E h lines, h <> s2l "version 0.1.0" -> ~ In c_nl h -> (forall l, In l lines -> ~ In c_nl l) ->
  deserialize E (join [c_nl] (h :: lines)) = Err RuntimeError.
Proof.
  intros E h lines Hh Nh H. unfold deserialize. rewrite split_join; [|discriminate|intros p [<-|Hp]; auto].
  cbn [deserialize_lines]. destruct (starts_with (s2l "version") h); cbn [negb]; auto.
  destruct (list_eq_dec ascii_dec h version_header); [contradiction|reflexivity].
Qed.

(** A model line needs nothing but the path: no config, and the weight space. *)
Theorem C71_model_defaults : forall E p, In "weight" (e_spaces E) ->
  ~ In "="%char (s2l p) -> ~ In c_nl (s2l p) -> path_norm (s2l p) = s2l p ->
  deserialize E (recipe_text [s2l "model " ++ quoted p]) = Ok (VModel p None "weight").
Proof.
  intros E p Hw He Hn Hp.
  assert (T : s2l "model " ++ quoted p = join sp1 (s2l "model" :: [quoted p])) by reflexivity.
  rewrite deser_text.
  - cbn [run_lines]. rewrite T. destruct (vtext_word _ _ (vtext_quoted p)) as (V1 & V2).
    rewrite (parse_join E [] "model" [quoted p] [raw_quoted p]); [|simpl; tauto|constructor; auto|intros t [<-|[]]; auto].
    cbn [preprocess].
    assert (X : has_char "="%char (raw_quoted p) = false).
    { destruct (has_char "="%char (raw_quoted p)) eqn:X; auto. exfalso. unfold has_char in X. apply existsb_exists in X as (c & Hc & Ec).
      apply Ascii.eqb_eq in Ec. subst c. unfold raw_quoted in Hc. destruct Hc as [Hc|Hc]; [discriminate|].
      apply in_app_iff in Hc as [Hc|[Hc|[]]]; [auto|discriminate]. }
    rewrite X, arg_str. cbn [bind app]. unfold dispatch. rewrite l2s_s2l. cbn [String.eqb Ascii.eqb Bool.eqb fst snd].
    unfold cmd_model, resolve_space. cbn -[existsb e_spaces path_norm s2l l2s String.eqb].
    replace (existsb (String.eqb "weight") (e_spaces E)) with true.
    + cbn -[path_norm s2l l2s]. rewrite Hp, l2s_s2l. reflexivity.
    + symmetry. apply existsb_exists. exists "weight". split; auto.
  - intros l [<-|[]]. intros X. apply in_app_iff in X as [X|X].
    + simpl in X. repeat (destruct X as [X|X]; [discriminate|]). destruct X.
    + unfold quoted in X. destruct X as [X|X]; [discriminate|]. apply in_app_iff in X as [X|[X|[]]]; [|discriminate].
      apply in_flat_map in X as (c & Hc & X). unfold escape1 in X.
      destruct (Ascii.eqb c c_bslash); [|destruct (Ascii.eqb c c_quote)]; simpl in X;
        repeat (destruct X as [X|X]; [try discriminate X; try (subst; auto)|]); destruct X.
Qed.

(** A line whose first word is no command raises, whatever follows. *)
Definition word_char (c : ascii) : Prop := py_isspace c = false /\ c <> c_quote /\ c <> c_bslash.
Lemma tok_step_grows : forall l st, exists more, k_toks (tok_run st l) = k_toks st ++ more.
Proof.
  induction l as [|c l IH]; intros st; [exists []; rewrite app_nil_r; reflexivity|].
  change (tok_run st (c :: l)) with (tok_run (tok_step st c) l). destruct (IH (tok_step st c)) as (more & ->).
  assert (exists m, k_toks (tok_step st c) = k_toks st ++ m) as (m & ->).
  { unfold tok_step. destruct (k_esc st); [exists []; rewrite app_nil_r; reflexivity|].
    destruct (Ascii.eqb c c_bslash); [exists []; rewrite app_nil_r; reflexivity|].
    destruct (Ascii.eqb c c_quote); [destruct (k_inq st); [eexists; reflexivity|exists []; rewrite app_nil_r; reflexivity]|].
    destruct (Ascii.eqb c " "%char && negb (k_inq st)); [|exists []; rewrite app_nil_r; reflexivity].
    destruct (k_cur st); [exists []; rewrite app_nil_r; reflexivity|eexists; reflexivity]. }
  exists (m ++ more). rewrite app_assoc; reflexivity.
Qed.
Lemma tokenize_first : forall w r, plain w -> w <> [] -> r = [] \/ (exists r', r = " "%char :: r') ->
  match tokenize (w ++ r) with Ok toks => exists more, toks = w :: more | Err _ => True end.
Proof.
  intros w r Hp Hne Hr. unfold tokenize. rewrite tok_run_app, tok_plain by auto. destruct Hr as [->|(r' & ->)].
  - destruct w; [congruence|]. cbn. eauto.
  - change (tok_run (TK [] ([] ++ w) [] false false) (" "%char :: r'))
      with (tok_run (tok_step (TK [] w [] false false) " "%char) r').
    assert (St : tok_step (TK [] w [] false false) " "%char = TK [w] [] [] false false) by (destruct w; [congruence|reflexivity]).
    rewrite St. destruct (tok_step_grows r' (TK [w] [] [] false false)) as (more & E).
    unfold tok_end. destruct (k_inq _); auto. rewrite E. simpl. eauto.
Qed.
Lemma rstrip_suffix : forall w r, w <> [] -> nospace w -> exists r' b, rstrip (w ++ r) = w ++ r' /\ r = r' ++ b.
Proof.
  intros w r Hne Hs. induction r as [|c r IH] using rev_ind.
  - exists [], []. rewrite !app_nil_r. destruct (@exists_last _ w Hne) as (u & d & ->). rewrite rstrip_last; auto.
    apply Hs. apply in_app_iff; right; left; auto.
  - rewrite app_assoc. destruct (py_isspace c) eqn:Ec.
    + rewrite rstrip_blank by (intros x [<-|[]]; auto). destruct IH as (r' & b & E1 & E2). exists r', (b ++ [c]).
      rewrite app_assoc, <- E2. auto.
    + rewrite rstrip_last by auto. exists (r ++ [c]), []. rewrite <- app_assoc, app_nil_r. auto.
Qed.
Theorem C71_unknown_command : forall E before w rest after,
  w <> [] -> (forall c, In c w -> word_char c) -> hd_error w <> Some "#"%char ->
  ~ In (l2s w) ["dict"; "literal"; "model"; "merge"] -> rest = [] \/ (exists r, rest = " "%char :: r) ->
  (forall l, In l (before ++ (w ++ rest) :: after) -> ~ In c_nl l) ->
  exists e, deserialize E (recipe_text (before ++ (w ++ rest) :: after)) = Err e.
Proof.
  intros E before w rest after Hne Hw Hh Hc Hr Hn. rewrite deser_text by auto. rewrite run_lines_app.
  destruct (run_lines E [] before) as [R|e]; cbn [bind]; eauto. cbn [run_lines].
  assert (Hs : nospace w) by (intros c X; apply Hw; auto).
  assert (Hp : plain w).
  { intros c X. destruct (Hw c X) as (Y & Z). split; auto. intros ->. discriminate. }
  assert (exists e, parse_line E R (w ++ rest) = Err e) as (e & ->); [|cbn [bind]; eauto].
  assert (exists r, strip (w ++ rest) = w ++ r /\ (r = [] \/ exists r', r = " "%char :: r')) as (r & St & Hr').
  { unfold strip. replace (lstrip (w ++ rest)) with (w ++ rest).
    - destruct (rstrip_suffix w rest Hne Hs) as (r & b & E1 & E2). exists r. split; auto.
      destruct r as [|x r]; auto. right. destruct Hr as [->|(r' & ->)]; [discriminate|]. injection E2 as <- _. eauto.
    - destruct w as [|c w]; [congruence|]. symmetry. apply lstrip_head. apply Hs; left; auto. }
  unfold parse_line. rewrite St.
  assert (Hash : starts_with ["#"%char] (w ++ r) = false).
  { destruct w as [|c w]; [congruence|]. simpl in Hh. cbn [starts_with app]. destruct (Ascii.eqb_spec "#"%char c); auto; congruence. }
  rewrite Hash. pose proof (tokenize_first w r Hp Hne Hr') as T.
  destruct (tokenize (w ++ r)) as [toks|e]; cbn [bind]; eauto. destruct T as (more & ->).
  destruct (preprocess R more [] []); cbn [bind]; eauto.
  set (x := l2s w) in *.
  destruct (String.eqb_spec x "dict") as [->|]; [exfalso; apply Hc; simpl; auto|].
  destruct (String.eqb_spec x "literal") as [->|]; [exfalso; apply Hc; simpl; auto|].
  destruct (String.eqb_spec x "model") as [->|]; [exfalso; apply Hc; simpl; auto|].
  destruct (String.eqb_spec x "merge") as [->|]; [exfalso; apply Hc; simpl; auto|]. eauto.
Qed.

Definition E_hand : env := Env [] ["sd1-ldm"] ["weight"; "delta"; "param"].
Example C71_applies :
  deserialize E_hand (recipe_text [s2l "  # two models"; s2l " model ""dir/a.safetensors"" model_config=""sd1-ldm"" "; s2l "model ""b"""]) = Ok (VModel "b" None "weight") /\
  comment_line (s2l "  # two models") /\ path_norm (s2l "dir/a.safetensors") = s2l "dir/a.safetensors" /\
  (forall c, In c (s2l "modell") -> word_char c) /\ ~ In "modell" ["dict"; "literal"; "model"; "merge"].
Proof.
  split; [reflexivity|]. split; [|split; [reflexivity|split]].
  - exists (s2l "  "), (s2l " two models"). split; [|reflexivity]. intros c [<-|[<-|[]]]; reflexivity.
  - intros c H. simpl in H. repeat (destruct H as [<-|H]; [repeat split; discriminate|]). destruct H.
  - simpl. intuition discriminate.
Qed.
Print Assumptions C71_comments.
Print Assumptions C71_padding.
Print Assumptions C71_version.
Print Assumptions C71_model_defaults.
Print Assumptions C71_unknown_command.
