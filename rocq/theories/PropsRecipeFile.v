(** C124: recipe files *)
From Coq Require Import String Ascii List Bool Arith NArith ZArith Lia.
From Verif Require Import Base Dec ModelPaths SpecPaths PathsProofs PropsPaths Json PyStr ModelRecipe ModelSerial SpecRecipe
  SerialProofs1 SerialProofs3 PropsSerial ModelRecipeFile SpecRecipeFile.
Import ListNotations.
Open Scope string_scope.
Open Scope list_scope.
Open Scope nat_scope.

(** ** the suffix *)
Lemma mecha_iff : forall name, suffix_of name = ".mecha" <-> exists a s, name = (String a s ++ ".mecha")%string.
Proof.
  intro name. unfold suffix_of. split.
  - destruct (rfind "." (s2l name)) as [i|] eqn:F; [|discriminate].
    destruct (0 <? i) eqn:P; [|discriminate]. destruct (i <? _); [|discriminate]. simpl.
    intro E. apply rfind_skipn in F. destruct F as (a & b & L & I).
    apply Nat.ltb_lt in P. destruct a as [|x a]; [simpl in I; lia|].
    exists x, (l2s a). apply s2l_inj. change (s2l name = x :: s2l (l2s a ++ ".mecha")%string). rewrite s2l_app.
    rewrite s2l_l2s, L, <- E, s2l_l2s. match goal with |- _ = _ :: _ ++ ?z => change ((x :: a) ++ "."%char :: b = (x :: a) ++ z) end. f_equal. rewrite <- I. rewrite L. symmetry. exact (skipn_app_exact (x :: a) ("."%char :: b)).
  - intros (a & s & ->). rewrite s2l_app, rfind_app.
    replace (rfind "." (s2l ".mecha")) with (Some 0) by reflexivity.
    rewrite Nat.add_0_r, skipn_app_exact, app_length.
    assert (L : 0 < length (s2l (String a s))) by (simpl; lia).
    apply Nat.ltb_lt in L. rewrite L.
    assert (M : length (s2l (String a s)) < length (s2l (String a s)) + length (s2l ".mecha") - 1) by (simpl; lia).
    apply Nat.ltb_lt in M. rewrite M. reflexivity.
Qed.
Lemma mecha_spec : forall p, String.eqb (suffix p) ".mecha" = true <-> is_mecha p.
Proof.
  intro p. rewrite String.eqb_eq. unfold suffix, is_mecha. split.
  - intro E. destruct p as [|c p] using rev_ind; [discriminate|]. rewrite last_last in E.
    apply mecha_iff in E. destruct E as (a & s & ->). exists p, a, s. reflexivity.
  - intros (q & a & s & ->). rewrite last_last. apply mecha_iff. exists a, s. reflexivity.
Qed.

(** ** line ends *)
Lemma universal_reads : forall x, reads_as x (universal_newlines x).
Proof.
  intro x. assert (G : forall n x, length x <= n -> reads_as x (universal_newlines x)).
  { induction n as [|n IH]; intros [|c y] L; simpl in L; try constructor; try lia.
    cbn [universal_newlines]. destruct (Ascii.eqb_spec c c_cr) as [->|N]; [|constructor; auto; apply IH; lia].
    destruct y as [|d z]; [constructor; [discriminate|constructor]|].
    destruct (Ascii.eqb_spec d c_nl) as [->|M].
    - constructor. apply IH. simpl in L. lia.
    - apply reads_cr; [congruence|]. apply IH. simpl in *. lia. }
  exact (G _ x (le_n _)).
Qed.
Lemma reads_unique : forall x t, reads_as x t -> forall t', reads_as x t' -> t = t'.
Proof.
  induction 1 as [|x t H IH|x t N H IH|c x t N H IH]; intros t' H'; inversion H'; subst; auto; try congruence; try (f_equal; auto).
Qed.
Lemma universal_iff : forall x t, universal_newlines x = t <-> reads_as x t.
Proof. intros x t. split; [intros <-; apply universal_reads|]. intro H. exact (reads_unique _ _ (universal_reads x) _ H). Qed.
Lemma reads_self : forall x, ~ In c_cr x -> reads_as x x.
Proof.
  induction x as [|c x IH]; intro N; constructor; [intros ->; apply N; left; auto|]. apply IH. intro X. apply N. right; auto.
Qed.

(** ** a recipe without carriage returns has a text without carriage returns *)
Section NoCr.
  Notation clean := (fun l : chars => ~ In c_cr l).
  Lemma clean_app : forall a b : chars, clean a -> clean b -> clean (a ++ b).
  Proof. intros a b A B X. apply in_app_iff in X as [X|X]; auto. Qed.
  Lemma clean_cons : forall c (a : chars), c <> c_cr -> clean a -> clean (c :: a).
  Proof. intros c a N A [X|X]; auto. Qed.
  Lemma clean_dec : forall n, clean (dec n).
  Proof. intros n X. apply dec_digits in X. discriminate. Qed.
  Lemma clean_decZ : forall z, clean (dec_Z z).
  Proof. intros [|p|p]; unfold dec_Z; try apply clean_dec. apply clean_cons; [discriminate|apply clean_dec]. Qed.
  Lemma clean_quoted : forall s, cr_free s -> clean (quoted s).
  Proof.
    intros s H. unfold quoted. apply clean_cons; [discriminate|]. apply clean_app; [|intros [X|[]]; discriminate].
    intro X. apply in_flat_map in X as (c & Hc & X). unfold escape1 in X.
    destruct (Ascii.eqb c c_bslash); [|destruct (Ascii.eqb c c_quote)]; simpl in X;
      repeat (destruct X as [X|X]; [try discriminate X; try (subst; exact (H Hc))|]); destruct X.
  Qed.
  Lemma clean_join : forall sep ls, clean sep -> Forall clean ls -> clean (Json.join sep ls).
  Proof.
    intros sep ls Hs H. induction H as [|x l Hx Hl IH]; [intros []|].
    destruct l as [|y l]; [exact Hx|]. change (Json.join sep (x :: y :: l)) with (x ++ sep ++ Json.join sep (y :: l)).
    apply clean_app; auto. apply clean_app; auto.
  Qed.
  Lemma clean_instr : forall line I, clean line -> Forall clean I ->
    clean (fst (add_instr line I)) /\ Forall clean (snd (add_instr line I)).
  Proof.
    intros line I L F. unfold add_instr. destruct (index_of line I); cbn [fst snd];
      (split; [apply clean_cons; [discriminate|apply clean_dec]|]); auto.
    apply Forall_app. auto.
  Qed.
  Lemma clean_lit : forall s, has_char c_cr (s2l s) = false -> clean (s2l s).
  Proof. intros s H. apply has_char_false. exact H. Qed.

  Definition clean_ser (v : pyobj) : Prop := every no_cr v -> forall I t I', Forall clean I -> ser v I = Ok (t, I') ->
    clean t /\ Forall clean I'.
  Lemma clean_list : forall l, Forall clean_ser l -> all_in (every no_cr) l ->
    forall I ts I', Forall clean I -> ser_list ser l I = Ok (ts, I') -> Forall clean ts /\ Forall clean I'.
  Proof.
    induction 1 as [|v l Hv Hl IH]; intros A I ts I' F; cbn [ser_list]; [intro H; injection H as <- <-; auto|].
    destruct A as (A1 & A2). destruct (ser v I) as [[t I1]|e] eqn:E; cbn [bind snd fst]; [|discriminate].
    destruct (ser_list ser l I1) as [[rs I2]|e] eqn:E2; cbn [bind snd fst]; [|discriminate]. intro H; injection H as <- <-.
    destruct (Hv A1 _ _ _ F E) as (C1 & C2). destruct (IH A2 _ _ _ C2 E2) as (C3 & C4). auto.
  Qed.
  Lemma clean_kws : forall l, Forall (fun kv => clean_ser (snd kv)) l -> all_kin (every no_cr) l ->
    (forall k w, In (k, w) l -> cr_free k) ->
    forall I ts I', Forall clean I -> ser_kws ser l I = Ok (ts, I') -> Forall clean ts /\ Forall clean I'.
  Proof.
    induction 1 as [|[k v] l Hv Hl IH]; intros A K I ts I' F; cbn [ser_kws]; [intro H; injection H as <- <-; auto|].
    destruct A as (A1 & A2). destruct (ser v I) as [[t I1]|e] eqn:E; cbn [bind snd fst]; [|discriminate].
    destruct (ser_kws ser l I1) as [[rs I2]|e] eqn:E2; cbn [bind snd fst]; [|discriminate]. intro H; injection H as <- <-.
    destruct (Hv A1 _ _ _ F E) as (C1 & C2). destruct (IH A2 (fun a b i => K a b (or_intror i)) _ _ _ C2 E2) as (C3 & C4).
    split; auto. constructor; auto. apply clean_app; [exact (K k v (or_introl eq_refl))|]. apply clean_cons; [discriminate|auto].
  Qed.

  Lemma instr_out : forall line I t I', Ok (add_instr line I) = Ok (t, I') -> clean line -> Forall clean I -> clean t /\ Forall clean I'.
  Proof. intros line I t I' H L F. injection H as H. pose proof (clean_instr line I L F) as C. rewrite H in C. exact C. Qed.
  Lemma clean_sp1 : clean sp1.
  Proof. intros [X|[]]; discriminate. Qed.
  Hint Resolve clean_app clean_quoted clean_sp1 : clean.
  Lemma ser_clean : forall v, clean_ser v.
  Proof.
    induction v as [s|z|s|b| |i|p|l Hl|w c s Hw|p c s|m args kw Ha Hk] using pyobj_rect'; intros A I0 t0 I' F;
      cbn [ser every] in *; destruct A as (A & B); cbn [no_cr] in A.
    - intro H; injection H as <- <-. auto with clean.
    - intro H; injection H as <- <-. split; auto. apply clean_decZ.
    - intro H; injection H as <- <-. auto.
    - intro H; injection H as <- <-. split; auto. destruct b; apply has_char_false; reflexivity.
    - intro H; injection H as <- <-. split; auto. apply has_char_false; reflexivity.
    - discriminate.
    - discriminate.
    - destruct (ser_kws ser l I0) as [[ts I1]|e] eqn:E; cbn [bind fst snd]; [|discriminate]. intro H.
      destruct (clean_kws _ Hl B A _ _ _ F E) as (C1 & C2).
      apply (instr_out _ _ _ _ H); auto. apply clean_app; [apply has_char_false; reflexivity|]. apply clean_join; auto with clean.
    - destruct A as (A1 & A2). destruct c as [c|]; [|apply Hw; auto].
      destruct (ser w I0) as [[t I1]|e] eqn:E; cbn [bind fst snd]; [|discriminate]. intro H.
      destruct (Hw B _ _ _ F E) as (C1 & C2).
      apply (instr_out _ _ _ _ H); auto.
      repeat apply clean_app; auto with clean; apply has_char_false; reflexivity.
    - destruct A as (A1 & A2 & A3). intro H. apply (instr_out _ _ _ _ H); auto.
      repeat apply clean_app; auto with clean; try (apply has_char_false; reflexivity).
      destruct c; auto with clean. apply has_char_false; reflexivity.
    - destruct A as (A1 & A2), B as (B1 & B2).
      destruct (ser_list ser args I0) as [[ts I1]|e] eqn:E; cbn [bind fst snd]; [|discriminate].
      destruct (ser_kws ser kw I1) as [[ks I2]|e] eqn:E2; cbn [bind fst snd]; [|discriminate]. intro H.
      destruct (clean_list _ Ha B1 _ _ _ F E) as (C1 & C2). destruct (clean_kws _ Hk B2 A2 _ _ _ C2 E2) as (C3 & C4).
      apply (instr_out _ _ _ _ H); auto. apply clean_join; auto with clean.
      constructor; [apply has_char_false; reflexivity|]. constructor; auto with clean. apply Forall_app. auto.
  Qed.
  Lemma serialize_clean : forall r t, every no_cr r -> serialize r = Ok t -> clean t.
  Proof.
    intros r t H. unfold serialize. destruct (ser r []) as [[x I]|e] eqn:E; cbn [bind snd]; [|discriminate].
    intro X. assert (t = Json.join [c_nl] (version_header :: I)) as -> by congruence. clear X. destruct (ser_clean r H [] x I (Forall_nil _) E) as (_ & C).
    apply clean_join; [intros [X|[]]; discriminate|]. constructor; auto. apply has_char_false; reflexivity.
  Qed.
End NoCr.

(** ** C124 *)

(** What deserialize_path gives: the recipe of the text of the file, if the path is named ".mecha". *)
Lemma read_iff : forall fs cwd n p t, read_text fs cwd n p = Ok t <-> exists x, holds fs n cwd p x /\ reads_as x t.
Proof.
  intros fs cwd n p t. unfold read_text, leads_to, holds, names. change start with base. split.
  - destruct (follow _ _ _ _ _) as [r|] eqn:L; [|discriminate]. apply existing_leads in L.
    destruct (fs r) as [[x| |l]|] eqn:X; try discriminate. intro H; injection H as H. apply universal_iff in H. eauto.
  - intros (x & (r & N & X) & R). apply existing_leads in N. rewrite N, X. apply universal_iff in R. rewrite R. reflexivity.
Qed.
Theorem C124_load : forall fs cwd n E p r, deserialize_path fs cwd n E p = Ok r <->
  is_mecha (parts p) /\ exists x t, holds fs n cwd p x /\ reads_as x t /\ deserialize E t = Ok r.
Proof.
  intros fs cwd n E p r. unfold deserialize_path. split.
  - destruct (exists_ fs cwd n p); cbn [negb]; [|discriminate].
    destruct (String.eqb _ _) eqn:S; [|discriminate]. apply mecha_spec in S.
    destruct (read_text fs cwd n p) as [t|e] eqn:T; cbn [bind]; [|discriminate]. apply read_iff in T. destruct T as (x & H & R). intro D.
    split; auto. exists x, t. auto.
  - intros (S & x & t & H & R & D). apply mecha_spec in S.
    assert (X : exists_ fs cwd n p = true) by (apply exists_iff; destruct H as (q & N & _); eauto).
    assert (T : read_text fs cwd n p = Ok t) by (apply read_iff; eauto).
    rewrite X, S, T. cbn [negb bind]. exact D.
Qed.
Print Assumptions C124_load.

(** A path that leads nowhere, or is not named ".mecha", raises ValueError; nothing is read. *)
Theorem C124_refuses : forall fs cwd n E p, nowhere fs n cwd p \/ ~ is_mecha (parts p) ->
  deserialize_path fs cwd n E p = Err ValueError.
Proof.
  intros fs cwd n E p H. unfold deserialize_path. destruct (exists_ fs cwd n p) eqn:X; cbn [negb]; auto.
  destruct (String.eqb _ _) eqn:S; auto. exfalso. apply exists_iff in X. destruct X as (r & X). apply mecha_spec in S.
  destruct H as [H|H]; [exact (H r X)|auto].
Qed.
Print Assumptions C124_refuses.

(** What serialize leaves behind: the text it returns, in the file that the output names, and no other change;
    nothing at all if it raises or has no output. *)
Theorem C124_save : forall fs cwd n v p res fs', serialize_to fs cwd n v p = (res, fs') ->
  (forall e, res = Err e -> fs' = fs) /\
  (forall t, res = Ok t -> serialize v = Ok t /\
     match p with
     | None => fs' = fs
     | Some p => exists r, (names fs n cwd p r \/ can_make fs n (base p cwd) (parts p) r) /\
         names fs' n cwd p r /\ fs' r = Some (File t) /\ forall q, q <> r -> fs' q = fs q
     end).
Proof.
  intros fs cwd n v p res fs'. unfold serialize_to, write_text. destruct (serialize v) as [t|e] eqn:S.
  - destruct p as [p|]; [|intro H; injection H as <- <-; split; [discriminate|]; intros u U; injection U as <-; auto].
    destruct (open_output fs cwd n [] p) as [[r fs1]|e] eqn:O; cbn [bind fst snd];
      intro H; injection H as <- <-; split; try discriminate; auto.
    intros u U; injection U as <-. split; auto. exists r.
    destruct (C97_output_place fs cwd n [] p p r fs1 (goes_here [] p eq_refl) O) as (P1 & P2).
    apply opened in O. destruct O as (_ & _ & ->). repeat split; auto.
    + unfold set_file. destruct (list_eq_dec string_dec r r); congruence.
    + intros q Q. unfold set_file. destruct (list_eq_dec string_dec q r); congruence.
  - intro H; injection H as <- <-. split; auto. discriminate.
Qed.
Print Assumptions C124_save.

(** It raises only if the recipe cannot be written as text, or the file cannot be made. *)
Theorem C124_save_raises : forall fs cwd n v p e, fst (serialize_to fs cwd n v (Some p)) = Err e ->
  serialize v = Err e \/ (forall r, ~ can_make fs n (base p cwd) (parts p) r /\ forall x, ~ (names fs n cwd p r /\ fs r = Some (File x))).
Proof.
  intros fs cwd n v p e. unfold serialize_to, write_text. destruct (serialize v) as [t|e'] eqn:S; [|cbn [fst]; auto].
  destruct (open_output fs cwd n [] p) as [[r fs1]|e'] eqn:O; cbn [bind fst snd]; [discriminate|]. intros _. right. intro r.
  assert (P : output_path [] p = p) by (unfold output_path; destruct (absolute p); reflexivity).
  unfold open_output, leads_to in O. rewrite P in O. change start with base in O. split.
  - intro M. assert (C : follow fs Creating n (base p cwd) (parts p) = Some r) by (apply creating_iff; auto).
    rewrite C in O. assert (N : fs r = None) by (clear -M; induction M; auto). rewrite N in O. discriminate.
  - intros x (N & X). assert (C : follow fs Creating n (base p cwd) (parts p) = Some r) by (apply creating_iff; auto).
    rewrite C, X in O. discriminate.
Qed.
Print Assumptions C124_save_raises.

(** Saving and loading give the recipe back. *)
Theorem C124_round_trip : forall fs cwd n E v p t fs', (forall m g, resolve_method E m = Ok g -> sig_ok g) ->
  is_node v = true -> every (made E) v -> every spelled v -> bare v = false -> every no_cr v -> is_mecha (parts p) ->
  serialize_to fs cwd n v (Some p) = (Ok t, fs') -> deserialize_path fs' cwd n E p = Ok v.
Proof.
  intros fs cwd n E v p t fs' SG Hn Hm Hs Hb Hc Hp S. destruct (C124_save _ _ _ _ _ _ _ S) as (_ & S').
  destruct (S' t eq_refl) as (T & r & _ & N & X & _). apply C124_load. split; auto. exists t, t.
  repeat split; [exists r; auto| |].
  - apply reads_self. exact (serialize_clean v t Hc T).
  - destruct (C01_round_trip E SG v Hn Hm Hs Hb) as (t' & T' & D). congruence.
Qed.
Print Assumptions C124_round_trip.

(** A file with the line ends of Windows or of old Macs gives what the text gives. *)
Lemma same_reads : forall e t x, e = [c_cr; c_nl] \/ e = [c_cr] \/ e = [c_nl] -> ~ In c_cr t -> same_lines e t x -> reads_as x t.
Proof.
  intros e t x He N H. induction H as [|t x H IH|c t x Hc H IH]; [constructor| |].
  - assert (I : reads_as x t) by (apply IH; intro X; apply N; right; auto).
    destruct He as [->|[->| ->]]; cbn [app].
    + constructor; auto.
    + apply reads_cr; auto. intros y ->. inversion H; subst; try discriminate. congruence.
    + constructor; [discriminate|auto].
  - constructor; [intros ->; apply N; left; auto|]. apply IH. intro X; apply N; right; auto.
Qed.
Theorem C124_line_ends : forall fs cwd n E p e t x, e = [c_cr; c_nl] \/ e = [c_cr] \/ e = [c_nl] ->
  ~ In c_cr t -> same_lines e t x -> is_mecha (parts p) -> holds fs n cwd p x ->
  deserialize_path fs cwd n E p = deserialize E t.
Proof.
  intros fs cwd n E p e t x He N S Hp H. pose proof (same_reads _ _ _ He N S) as R.
  unfold deserialize_path. apply mecha_spec in Hp.
  assert (X : exists_ fs cwd n p = true) by (apply exists_iff; destruct H as (q & Q & _); eauto).
  assert (T : read_text fs cwd n p = Ok t) by (apply read_iff; eauto).
  rewrite X, Hp, T. reflexivity.
Qed.
Print Assumptions C124_line_ends.

(** Given the lines of an open file, as [readlines] gives them, deserialize never gives a recipe: the version line
    keeps its "\n".  (examples/recipe_deserialize.py does this.) *)
Theorem C124_readlines_refuted : forall fs cwd n E p, exists e, deserialize_readlines fs cwd n E p = Err e.
Proof.
  intros fs cwd n E p. unfold deserialize_readlines. destruct (read_text fs cwd n p) as [t|e]; cbn [bind]; eauto.
  assert (G : forall t, match readlines t with
    | [] => True | [l] => True | l :: _ => In c_nl l end).
  { clear. induction t as [|c t IH]; cbn [readlines]; auto. destruct (Ascii.eqb_spec c c_nl) as [->|N].
    - destruct (readlines t); auto. left; auto.
    - destruct (readlines t) as [|x [|y xs]]; auto. right; auto. }
  specialize (G t). destruct (readlines t) as [|h [|l rest]]; cbn [deserialize_lines]; eauto.
  - destruct (starts_with _ h); cbn [negb]; eauto. destruct (list_eq_dec _ _ _); eauto. cbn [run_lines bind]. cbn. eauto.
  - destruct (starts_with _ h); cbn [negb]; eauto. destruct (list_eq_dec _ h version_header) as [->|]; eauto.
    exfalso. revert G. apply has_char_false. reflexivity.
Qed.
Print Assumptions C124_readlines_refuted.

(** A file that ends with a newline, as editors leave it, is never a recipe. *)
Theorem C124_final_newline_refuted : forall E t, exists e, deserialize E (t ++ [c_nl]) = Err e.
Proof.
  intros E t. unfold deserialize.
  assert (G : exists l ls, split_on c_nl (t ++ [c_nl]) = l :: ls ++ [[]]).
  { induction t as [|c t IH]; [exists [], []; reflexivity|]. destruct IH as (l & ls & IH). cbn [app split_on].
    destruct (Ascii.eqb c c_nl); rewrite IH; [exists [], (l :: ls)|exists (c :: l), ls]; reflexivity. }
  destruct G as (l & ls & ->). cbn [deserialize_lines]. destruct (starts_with _ l); cbn [negb]; eauto.
  destruct (list_eq_dec _ _ _); eauto.
  assert (R : forall ls R, exists e, run_lines E R (ls ++ [[]]) = Err e).
  { clear. induction ls as [|l ls IH]; intro R; cbn [app run_lines]; [eexists; reflexivity|].
    destruct (parse_line E R l); cbn [bind]; eauto. }
  destruct (R ls []) as (e' & ->). cbn [bind]. eauto.
Qed.
Print Assumptions C124_final_newline_refuted.

(** Every other recipe file still gives what it gave. *)
Theorem C124_others : forall fs cwd n E v p t fs' q w, serialize_to fs cwd n v (Some p) = (Ok t, fs') ->
  (forall r, names fs' n cwd p r -> ~ names fs n cwd q r) ->
  deserialize_path fs cwd n E q = Ok w -> deserialize_path fs' cwd n E q = Ok w.
Proof.
  intros fs cwd n E v p t fs' q w S N D. pose proof (C124_save _ _ _ _ _ _ _ S) as (_ & S').
  destruct (S' t eq_refl) as (_ & r & _ & P & X & O). clear S'.
  assert (F : fs r = None \/ exists y, fs r = Some (File y)).
  { unfold serialize_to, write_text in S. destruct (serialize v); [|discriminate].
    destruct (open_output fs cwd n [] p) as [[r' fs1]|] eqn:Op; cbn [bind fst snd] in S; [|discriminate].
    injection S as <- <-. destruct (opened _ _ _ _ _ _ _ Op) as (_ & F & ->).
    destruct (list_eq_dec string_dec r r') as [->|R]; auto. specialize (O r' (not_eq_sym R)).
    unfold set_file in O. destruct (list_eq_dec string_dec r' r'); [|congruence]. rewrite <- O in F. destruct F as [F|(y & F)]; [discriminate|].
    unfold set_file in X. destruct (list_eq_dec string_dec r r'); [congruence|]. eauto. }
  apply C124_load in D. destruct D as (M & x & u & (r' & L & H) & R & D). apply C124_load. split; auto. exists x, u. repeat split; auto.
  exists r'. split; [exact (leads_still _ _ _ _ O X F _ _ _ _ L)|]. rewrite O; auto. intros ->. exact (N r P L).
Qed.
Print Assumptions C124_others.

(** ** Examples, and where the claim fails *)
Definition nothing : files := fun _ => None.
Definition cr : string := String c_cr "".
(** a relative path to a directory and a link to it: "recipes" and "latest" *)
Definition disk : files := fun r =>
  match r with
  | ["recipes"] => Some Dir
  | ["latest"] => Some (Link (path_of "recipes/a.mecha"))
  | ["recipes"; "a.mecha"] => Some (File (s2l "version 0.1.0"))
  | ["recipes"; "b.mecha"] => Some (File (s2l "version 0.1.0" ++ [c_cr; c_nl] ++ s2l "model ""b"""))
  | _ => None
  end.

(** what is left after saving [v] to [p] *)
Definition saved (fs : files) (v : pyobj) (p : string) : files := snd (serialize_to fs [] 40 v (Some (path_of p))).

Example C124_saves :
  fst (serialize_to disk [] 40 r1 (Some (path_of "latest"))) = serialize r1 /\
  deserialize_path (saved disk r1 "latest") [] 40 E0 (path_of "recipes/a.mecha") = Ok r1 /\
  deserialize_path (saved disk r1 "latest") [] 40 E0 (path_of "recipes/b.mecha") = Ok (mdl "b") /\
  deserialize_path (saved disk r1 "latest") [] 40 E0 (path_of "latest") = Err ValueError /\
  fst (serialize_to disk [] 40 r1 (Some (path_of "missing/a.mecha"))) = Err FileNotFoundError.
Proof. repeat split; vm_compute; reflexivity. Qed.

(** the hypotheses of C124_round_trip *)
Example C124_round_trip_applies :
  every no_cr r1 /\ is_mecha (parts (path_of "/recipes/new.mecha")) /\
  deserialize_path (saved disk r1 "/recipes/new.mecha") [] 40 E0 (path_of "/recipes/new.mecha") = Ok r1.
Proof.
  split; [|split; [exists ["recipes"], "n"%char, "ew"; reflexivity|vm_compute; reflexivity]].
  cbn [r1 every all_in all_kin mdl no_cr]. unfold cr_free. repeat split; try (apply has_char_false; reflexivity).
  all: cbn [In]; intros k w H; try contradiction. destruct H as [H|[]]. injection H as <- <-. apply has_char_false. reflexivity.
Qed.

(** A path with a carriage return comes back from the text, but the file it was saved to cannot be loaded. *)
Definition with_cr : pyobj := mdl ("a" ++ cr ++ "b").
Theorem C124_cr_refuted : exists v t, every (made E0) v /\ every spelled v /\
  fst (serialize_to nothing [] 40 v (Some (path_of "a.mecha"))) = Ok t /\ deserialize E0 t = Ok v /\
  deserialize_path (saved nothing v "a.mecha") [] 40 E0 (path_of "a.mecha") = Err ValueError.
Proof.
  exists with_cr, (match serialize with_cr with Ok t => t | Err _ => [] end).
  split; [|split; [|split; [vm_compute; reflexivity|split; vm_compute; reflexivity]]].
  - unfold with_cr. cbn [every mdl]. split; auto. apply mdl_made. reflexivity.
  - unfold with_cr. cbn [every mdl spelled]. unfold positional, one_line. repeat split; try (apply has_char_false; reflexivity).
Qed.
Print Assumptions C124_cr_refuted.

(** serialize writes to a path of any name, also to one that deserialize_path refuses. *)
Theorem C124_suffix_refuted : forall v t, serialize v = Ok t ->
  fst (serialize_to nothing [] 40 v (Some (path_of "a.txt"))) = Ok t /\
  deserialize_path (saved nothing v "a.txt") [] 40 E0 (path_of "a.txt") = Err ValueError.
Proof.
  intros v t S. split.
  - unfold serialize_to. rewrite S. unfold write_text.
    destruct (open_output nothing [] 40 [] (path_of "a.txt")) as [o|e] eqn:O; cbn [bind]; [reflexivity|vm_compute in O; discriminate].
  - apply C124_refuses. right. intros H. apply mecha_spec in H. vm_compute in H. discriminate.
Qed.
Print Assumptions C124_suffix_refuted.

(** the repository's example, on the file that serialize writes *)
Example C124_readlines_applies :
  deserialize_path (saved nothing r1 "a.mecha") [] 40 E0 (path_of "a.mecha") = Ok r1 /\
  deserialize_readlines (saved nothing r1 "a.mecha") [] 40 E0 (path_of "a.mecha") = Err RuntimeError /\
  (match serialize r1 with Ok t => deserialize E0 (t ++ [c_nl]) | Err e => Err e end) = Err ValueError.
Proof. repeat split; vm_compute; reflexivity. Qed.
