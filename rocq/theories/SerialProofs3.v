(** The round trip: serializing then deserializing rebuilds the recipe. *)
From Coq Require Import String Ascii List Bool Arith NArith ZArith Lia.
From Verif Require Import Base Dec Json PyStr ModelRecipe ModelSerial SpecRecipe SerialProofs1 SerialProofs2.
Import ListNotations.
Open Scope string_scope.
Open Scope list_scope.
Open Scope nat_scope.

(** ** induction and size *)
Section PyInd.
  Variable P : pyobj -> Prop.
  Hypothesis HStr : forall s, P (VStr s).
  Hypothesis HInt : forall z, P (VInt z).
  Hypothesis HFloat : forall s, P (VFloat s).
  Hypothesis HBool : forall b, P (VBool b).
  Hypothesis HNone : P VNone.
  Hypothesis HTensor : forall i, P (VTensor i).
  Hypothesis HPath : forall p, P (VPath p).
  Hypothesis HDict : forall l, Forall (fun kv => P (snd kv)) l -> P (VDict l).
  Hypothesis HLit : forall v c s, P v -> P (VLit v c s).
  Hypothesis HModel : forall p c s, P (VModel p c s).
  Hypothesis HMerge : forall m args kw, Forall P args -> Forall (fun kv => P (snd kv)) kw -> P (VMerge m args kw).

  Fixpoint pyobj_rect' (v : pyobj) : P v :=
    let fix go (l : list pyobj) : Forall P l :=
      match l return Forall P l with
      | [] => Forall_nil _
      | x :: l' => Forall_cons x (pyobj_rect' x) (go l')
      end in
    let fix gok (l : list (string * pyobj)) : Forall (fun kv => P (snd kv)) l :=
      match l return Forall (fun kv => P (snd kv)) l with
      | [] => Forall_nil _
      | x :: l' => Forall_cons x (match x return P (snd x) with (k, y) => pyobj_rect' y end) (gok l')
      end in
    match v with
    | VStr s => HStr s | VInt z => HInt z | VFloat s => HFloat s | VBool b => HBool b | VNone => HNone
    | VTensor i => HTensor i | VPath p => HPath p
    | VDict l => HDict l (gok l)
    | VLit v c s => HLit v c s (pyobj_rect' v)
    | VModel p c s => HModel p c s
    | VMerge m args kw => HMerge m args kw (go args) (gok kw)
    end.
End PyInd.

Fixpoint size (v : pyobj) : nat :=
  match v with
  | VDict l => S (list_sum (map (fun kv => size (snd kv)) l))
  | VLit w _ _ => S (size w)
  | VMerge _ args kw => S (list_sum (map size args) + list_sum (map (fun kv => size (snd kv)) kw))
  | _ => 1
  end.

Lemma list_sum_In : forall A (f : A -> nat) l x, In x l -> f x <= list_sum (map f l).
Proof. induction l as [|y l IH]; intros x []; simpl; subst; [lia|]. specialize (IH x H). unfold list_sum in *. lia. Qed.

Lemma all_in_In : forall f l, all_in f l <-> (forall x, In x l -> f x).
Proof.
  induction l as [|y l IH]; simpl; split; auto; try tauto.
  - intros (H1 & H2) x [<-|H]; auto. apply IH; auto.
  - intros H. split; auto. apply IH. auto.
Qed.
Lemma all_kin_In : forall f l, all_kin f l <-> (forall k x, In (k, x) l -> f x).
Proof.
  induction l as [|[k0 y] l IH]; simpl; split; auto; try tauto.
  - intros (H1 & H2) k x [E|H]; [inversion E; subst; auto|]. eapply IH; eauto.
  - intros H. split; [eapply H; left; reflexivity|]. apply IH. eauto.
Qed.

(** ** lines *)
Definition dispatch (E : env) (cmd : chars) (pk : list pyobj * list (string * pyobj)) : result (option pyobj) :=
  let go (r : result pyobj) := let* v := r in Ok (Some v) in
  if String.eqb (l2s cmd) "dict" then go (cmd_dict (fst pk) (snd pk))
  else if String.eqb (l2s cmd) "literal" then go (cmd_literal E (fst pk) (snd pk))
  else if String.eqb (l2s cmd) "model" then go (cmd_model E (fst pk) (snd pk))
  else if String.eqb (l2s cmd) "merge" then go (cmd_merge E (fst pk) (snd pk))
  else Err ValueError.

Definition visible_end (t : chars) : Prop := exists u d, t = u ++ [d] /\ py_isspace d = false.

Lemma visible_end_app : forall a t, visible_end t -> visible_end (a ++ t).
Proof. intros a t (u & d & -> & H). exists (a ++ u), d. rewrite app_assoc. auto. Qed.

Lemma visible_end_join : forall ts, ts <> [] -> (forall t, In t ts -> visible_end t) -> visible_end (join sp1 ts).
Proof.
  induction ts as [|t ts IH]; intros Hne H; [congruence|].
  destruct ts as [|t2 ts]; [apply H; left; auto|].
  change (join sp1 (t :: t2 :: ts)) with (t ++ sp1 ++ join sp1 (t2 :: ts)).
  apply visible_end_app, visible_end_app. apply IH; [discriminate|]. intros x Hx; apply H; right; auto.
Qed.

Lemma plain_dec : forall l, forallb (fun c => negb (Ascii.eqb c " "%char) && negb (Ascii.eqb c c_quote) && negb (Ascii.eqb c c_bslash)) l = true -> plain l.
Proof.
  intros l H c Hc. rewrite forallb_forall in H. apply H in Hc.
  apply andb_true_iff in Hc as (Hc & H3). apply andb_true_iff in Hc as (H1 & H2).
  apply negb_true_iff in H1, H2, H3. apply Ascii.eqb_neq in H1, H2, H3. auto.
Qed.

Lemma parse_join : forall E R cmd ts ws, In cmd ["dict"; "literal"; "model"; "merge"] ->
  Forall2 tok_word ts ws -> (forall t, In t ts -> visible_end t) ->
  parse_line E R (join sp1 (s2l cmd :: ts)) = let* pk := preprocess R ws [] [] in dispatch E (s2l cmd) pk.
Proof.
  intros E R cmd ts ws Hc HF Hv.
  assert (Ec : exists c r, s2l cmd = c :: r /\ py_isspace c = false /\ c <> "#"%char /\ plain (s2l cmd) /\ visible_end (s2l cmd)).
  { destruct Hc as [<-|[<-|[<-|[<-|[]]]]]; simpl s2l; do 2 eexists; (split; [reflexivity|]);
    (split; [reflexivity|]); (split; [discriminate|]); (split; [apply plain_dec; reflexivity|]).
    - exists (s2l "dic"), "t"%char; split; reflexivity.
    - exists (s2l "litera"), "l"%char; split; reflexivity.
    - exists (s2l "mode"), "l"%char; split; reflexivity.
    - exists (s2l "merg"), "e"%char; split; reflexivity. }
  destruct Ec as (c & r & Ec & Hs & Hh & Hp & He).
  assert (St : strip (join sp1 (s2l cmd :: ts)) = join sp1 (s2l cmd :: ts)).
  { destruct (visible_end_join (s2l cmd :: ts)) as (u & d & Eu & Hd); [discriminate| |].
    - intros t [<-|Ht]; auto.
    - assert (exists l, join sp1 (s2l cmd :: ts) = c :: l) as (l & El).
      { rewrite Ec. destruct ts; simpl; eauto. }
      apply (strip_ends c l d); eauto. }
  unfold parse_line. rewrite St.
  assert (Hash : starts_with ["#"%char] (join sp1 (s2l cmd :: ts)) = false).
  { rewrite Ec. destruct ts; cbn [starts_with join app]; destruct (Ascii.eqb_spec "#"%char c); auto; congruence. }
  rewrite Hash. rewrite (tokenize_join _ (s2l cmd :: ws)); [reflexivity|discriminate|].
  constructor; auto. apply tok_word_plain; auto. rewrite Ec; discriminate.
Qed.

Lemma parse_dict_empty : forall E R, parse_line E R (s2l "dict ") = Ok (Some (VDict [])).
Proof. reflexivity. Qed.

(** ** running states *)
Definition runs (E : env) (I : list chars) (R : list pyobj) : Prop :=
  run_lines E [] I = Ok R /\ length R = length I /\ Forall (fun l => ~ In c_nl l) I.

Record denotes (R : list pyobj) (t w : chars) (v : pyobj) (pos : Prop) : Prop := {
  d_text : vtext t w;
  d_val : forall S, get_arg_value (R ++ S) w = Ok v;
  d_nl : ~ In c_nl t;
  d_pos : pos -> ~ In "="%char w }.

Lemma denotes_mono : forall R S t w v pos, denotes R t w v pos -> denotes (R ++ S) t w v pos.
Proof. intros R S t w v pos [H1 H2 H3 H4]. split; auto. intros S'. rewrite <- app_assoc. apply H2. Qed.

Lemma index_of_Some : forall x l i, index_of x l = Some i -> nth_error l i = Some x.
Proof.
  induction l as [|y l IH]; intros i H; simpl in H; [discriminate|].
  destruct (list_eq_dec ascii_dec x y); [inversion H; subst; reflexivity|].
  destruct (index_of x l) as [j|] eqn:E; [|discriminate]. inversion H; subst. simpl. apply IH; auto.
Qed.
Lemma index_of_None : forall x l, index_of x l = None <-> ~ In x l.
Proof.
  induction l as [|y l IH]; simpl; [tauto|].
  destruct (list_eq_dec ascii_dec x y) as [->|Hne].
  - split; [discriminate|]. intros H; exfalso; apply H; auto.
  - destruct (index_of x l) as [j|]; simpl; split; try discriminate; try tauto.
    + intros H. exfalso. assert (~ In x l) by tauto. apply IH in H0. discriminate.
    + intros _ [X|X]; [congruence|]. apply IH in X; auto.
Qed.

Lemma add_instr_runs : forall E I R line v pos, runs E I R -> parse_line E R line = Ok (Some v) -> ~ In c_nl line ->
  exists R' i, add_instr line I = (ref_text i, match R' with [] => I | _ => I ++ [line] end) /\
    runs E (snd (add_instr line I)) (R ++ R') /\ denotes (R ++ R') (fst (add_instr line I)) (ref_text i) v pos /\
    (R' = [v] \/ (R' = [] /\ In v R)).
Proof.
  intros E I R line v pos (H1 & H2 & H3) Hp Hnl. unfold add_instr.
  destruct (ref_plain 0) as (_ & _ & _ & _ & _).
  destruct (index_of line I) as [i|] eqn:Ei.
  - exists [], i. fold (ref_text i). simpl fst; simpl snd. rewrite app_nil_r.
    apply index_of_Some in Ei.
    destruct (run_lines_nth _ _ _ _ H1) with (i := i) (l := line) as (w & W1 & W2); auto. simpl in W1, W2.
    assert (w = v).
    { assert (X : parse_line E (firstn i R ++ skipn i R) line = Ok (Some w)) by (apply parse_line_mono; auto).
      rewrite firstn_skipn in X. congruence. }
    subst w. destruct (ref_plain i) as (P1 & P2 & P3 & P4 & P5).
    split; [reflexivity|]. split; [split; auto|]. split.
    + split; auto; [apply vtext_plain; auto|]. intros S. apply arg_ref. rewrite nth_error_app1; auto. apply nth_error_Some. congruence.
    + right. split; auto. eapply nth_error_In; eauto.
  - exists [v], (length I). fold (ref_text (length I)). simpl fst; simpl snd.
    destruct (ref_plain (length I)) as (P1 & P2 & P3 & P4 & P5).
    split; [reflexivity|]. split.
    + split; [|split].
      * rewrite run_lines_app, H1. cbn [bind run_lines]. rewrite Hp. reflexivity.
      * rewrite !app_length. simpl. lia.
      * apply Forall_app. split; auto.
    + split; [|left; auto]. split; auto; [apply vtext_plain; auto|]. intros S. apply arg_ref.
      rewrite <- app_assoc, nth_error_app2, <- H2, Nat.sub_diag by lia. reflexivity.
Qed.

(** ** argument lists *)
Lemma ser_kws_list : forall f l I, ser_kws f l I =
  let* r := ser_list f (map snd l) I in
  Ok (map (fun kt : string * chars => s2l (fst kt) ++ "="%char :: snd kt) (combine (map fst l) (fst r)), snd r).
Proof.
  induction l as [|[k v] l IH]; intros I; simpl; auto.
  destruct (f v I) as [r|]; simpl; auto. rewrite IH. destruct (ser_list f (map snd l) (snd r)) as [r'|]; simpl; auto.
Qed.

Lemma preprocess_pos : forall R ws vs rest pos kw,
  Forall2 (fun w v => ~ In "="%char w /\ get_arg_value R w = Ok v) ws vs ->
  preprocess R (ws ++ rest) pos kw = preprocess R rest (pos ++ vs) kw.
Proof.
  induction ws as [|w ws IH]; intros vs rest pos kw H; inversion H as [|? v ? vs' (H1 & H2) H3]; subst; simpl.
  - rewrite app_nil_r; auto.
  - apply has_char_false in H1. rewrite H1, H2. cbn [bind]. rewrite (IH vs') by auto. rewrite <- app_assoc. reflexivity.
Qed.

Lemma preprocess_kws : forall R ks ws vs pos kw, Forall key_ok ks -> length ks = length ws ->
  Forall2 (fun w v => get_arg_value R w = Ok v) ws vs ->
  preprocess R (map (fun kt : string * chars => s2l (fst kt) ++ "="%char :: snd kt) (combine ks ws)) pos kw
  = Ok (pos, dupdate String.eqb kw (combine ks vs)).
Proof.
  induction ks as [|k ks IH]; intros ws vs pos kw Hk Hl H.
  - destruct ws; [|discriminate]. reflexivity.
  - destruct ws as [|w ws]; [discriminate|]. inversion H as [|? v ? vs' H2 H3]; subst. inversion Hk as [|? ? K1 K2]; subst.
    simpl combine. cbn [map preprocess fst snd].
    assert (Hc : has_char "="%char (s2l k ++ "="%char :: w) = true) by (apply has_char_In, in_app_iff; right; left; auto).
    rewrite Hc, split_eq_key by (intros X; apply K1 in X; tauto). cbn [fst snd]. rewrite H2. cbn [bind].
    rewrite (IH ws vs') by (auto; simpl in Hl; lia). rewrite l2s_s2l. reflexivity.
Qed.

Lemma key_plain : forall k, key_ok k -> plain (s2l k ++ ["="%char]).
Proof.
  intros k H c Hc. apply in_app_iff in Hc as [Hc|[<-|[]]]; [|repeat split; discriminate].
  destruct (H c Hc) as (_ & _ & H1 & H2 & H3). auto.
Qed.

Definition kwtext (kt : string * chars) : chars := s2l (fst kt) ++ "="%char :: snd kt.

Lemma kwtext_word : forall k t w, key_ok k -> vtext t w -> tok_word (kwtext (k, t)) (kwtext (k, w)) /\ visible_end (kwtext (k, t)).
Proof.
  intros k t w Hk (H1 & H2). unfold kwtext. simpl.
  replace (s2l k ++ "="%char :: t) with ((s2l k ++ ["="%char]) ++ t) by (rewrite <- app_assoc; auto).
  replace (s2l k ++ "="%char :: w) with ((s2l k ++ ["="%char]) ++ w) by (rewrite <- app_assoc; auto).
  split; [apply H1; apply key_plain; auto|]. apply visible_end_app; auto.
Qed.

Lemma vtext_word : forall t w, vtext t w -> tok_word t w /\ visible_end t.
Proof. intros t w (H1 & H2). split; auto. apply (H1 []). intros c []. Qed.

(** ** the invariant of the serializer *)
Definition compound (v : pyobj) : bool :=
  match v with VDict _ | VLit _ (Some _) _ | VModel _ _ _ | VMerge _ _ _ => true | _ => false end.

Definition good (E : env) (v : pyobj) : Prop := forall I R, runs E I R ->
  exists t I' R' w, ser v I = Ok (t, I') /\ runs E I' (R ++ R') /\ denotes (R ++ R') t w (unbare v) (positional_value v) /\
  exists R'', Forall (fun x => size x < size v) R'' /\ (R' = R'' \/ R' = R'' ++ [v]) /\
              (compound v = true -> R' = R'' ++ [v] \/ In v (R ++ R'')).

Lemma good_size : forall (v : pyobj) R' R'', Forall (fun x => size x < size v) R'' -> (R' = R'' \/ R' = R'' ++ [v]) ->
  Forall (fun x => size x <= size v) R'.
Proof.
  intros v R' R'' H [->| ->].
  - eapply Forall_impl; [|exact H]. simpl; intros; lia.
  - apply Forall_app. split; [eapply Forall_impl; [|exact H]; simpl; intros; lia|]. constructor; auto.
Qed.

Lemma good_list : forall E l, Forall (good E) l -> forall I R, runs E I R ->
  exists tws I' R', ser_list ser l I = Ok (map fst tws, I') /\ runs E I' (R ++ R') /\
    Forall2 (fun tw v => denotes (R ++ R') (fst tw) (snd tw) (unbare v) (positional_value v)) tws l /\
    Forall (fun x => exists v, In v l /\ size x <= size v) R'.
Proof.
  induction l as [|v l IH]; intros HF I R Hr.
  - exists [], I, []. rewrite app_nil_r. simpl. repeat split; auto; apply Hr.
  - inversion HF as [|? ? Hv Hl]; subst.
    destruct (Hv I R Hr) as (t & I1 & R1 & w & S1 & Hr1 & D1 & R1'' & Z1 & Z2 & _).
    destruct (IH Hl I1 (R ++ R1) Hr1) as (tws & I2 & R2 & S2 & Hr2 & D2 & Z3).
    exists ((t, w) :: tws), I2, (R1 ++ R2). rewrite app_assoc. cbn [ser_list]. rewrite S1. cbn [bind fst snd]. rewrite S2. cbn [bind fst snd map].
    split; [reflexivity|]. split; [auto|]. split.
    + constructor; auto. apply denotes_mono; auto.
    + apply Forall_app. split.
      * eapply Forall_impl; [|eapply good_size; eauto]. simpl. intros x Hx. exists v. auto.
      * eapply Forall_impl; [|exact Z3]. simpl. intros x (y & Hy & Hs). exists y; auto.
Qed.

Lemma list_nl_join : forall ts, (forall t, In t ts -> ~ In c_nl t) -> ~ In c_nl (join sp1 ts).
Proof.
  induction ts as [|t ts IH]; intros H; simpl; auto.
  destruct ts as [|t2 ts]; [apply H; left; auto|].
  intros X. apply in_app_iff in X as [X|X]; [apply (H t); auto; left; auto|].
  destruct X as [X|X]; [discriminate|].
  apply IH in X; auto. intros y Hy; apply H; right; auto.
Qed.

Lemma escape_In : forall c l, In c (flat_map escape1 l) -> In c l \/ c = c_bslash.
Proof.
  intros c l H. apply in_flat_map in H as (x & Hx & H). unfold escape1 in H.
  destruct (Ascii.eqb_spec x c_bslash) as [->|]; [simpl in H; intuition|].
  destruct (Ascii.eqb_spec x c_quote) as [->|]; simpl in H; intuition; subst; auto.
Qed.

Lemma quoted_nl : forall s, one_line s -> ~ In c_nl (quoted s).
Proof.
  intros s H [X|X]; [discriminate|]. apply in_app_iff in X as [X|[X|[]]]; [|discriminate].
  apply escape_In in X as [X|X]; [auto|discriminate].
Qed.

Lemma kw_nl : forall k t, key_ok k -> ~ In c_nl t -> ~ In c_nl (kwtext (k, t)).
Proof.
  intros k t Hk Ht X. unfold kwtext in X. simpl in X. apply in_app_iff in X as [X|[X|X]]; [|discriminate|auto].
  apply Hk in X. tauto.
Qed.

Lemma quoted_denotes : forall R s, one_line s -> denotes R (quoted s) (raw_quoted s) (VStr s) (positional s).
Proof.
  intros R s H. split.
  - apply vtext_quoted.
  - intros; apply arg_str.
  - apply quoted_nl; auto.
  - intros (_ & X) [Y|Y]; [discriminate|]. apply in_app_iff in Y as [Y|[Y|[]]]; [auto|discriminate].
Qed.

Lemma F2_weaken : forall A B (P Q : A -> B -> Prop) l r, (forall x y, In x l -> In y r -> P x y -> Q x y) -> Forall2 P l r -> Forall2 Q l r.
Proof.
  intros A B P Q l r H HF. induction HF; constructor.
  - apply H; auto; left; auto.
  - apply IHHF. intros; apply H; auto; right; auto.
Qed.

Lemma F2_map_r : forall A B C (f : C -> B) (P : A -> B -> Prop) l r, Forall2 (fun x y => P x (f y)) l r -> Forall2 P l (map f r).
Proof. induction 1; simpl; constructor; auto. Qed.
Lemma F2_map_l : forall A B C (f : C -> A) (P : A -> B -> Prop) l r, Forall2 (fun x y => P (f x) y) l r -> Forall2 P (map f l) r.
Proof. induction 1; simpl; constructor; auto. Qed.

Lemma combine_map_snd : forall V W (f : V -> W) (l : list (string * V)), combine (map fst l) (map f (map snd l)) = map (fun kv => (fst kv, f (snd kv))) l.
Proof. induction l as [|[k v] l IH]; simpl; auto. f_equal; auto. Qed.

(** keyword texts made from denoted values *)
Lemma kw_words : forall R ks tws vs, Forall key_ok ks -> length ks = length tws ->
  Forall2 (fun tw v => denotes R (fst tw) (snd tw) (unbare v) (positional_value v)) tws vs ->
  Forall2 tok_word (map kwtext (combine ks (map fst tws))) (map kwtext (combine ks (map snd tws))) /\
  (forall t, In t (map kwtext (combine ks (map fst tws))) -> visible_end t /\ ~ In c_nl t).
Proof.
  induction ks as [|k ks IH]; intros tws vs Hk Hl H; [simpl; split; [constructor|intros t []]|].
  destruct tws as [|[t w] tws]; [discriminate|]. inversion H as [|? v ? vs' H2 H3]; subst. inversion Hk as [|? ? K1 K2]; subst.
  simpl in Hl. destruct (IH tws vs' K2) as (A1 & A2); [lia|auto|]. destruct H2 as [D1 D2 D3 D4]. simpl in *.
  destruct (kwtext_word k t w K1 D1) as (B1 & B2).
  split; [constructor; auto|]. intros x [<-|Hx]; [split; auto; apply kw_nl; auto|auto].
Qed.

Lemma NoDup_map_key : forall V W (f : V -> W) (l : list (string * V)), NoDup (map fst l) -> NoDup (map fst (map (fun kv => (fst kv, f (snd kv))) l)).
Proof. intros. rewrite map_map. auto. Qed.

Lemma supd_nil : forall V (x : list (string * V)), NoDup (map fst x) -> dupdate String.eqb [] x = x.
Proof. intros V x H. apply (dupdate_fresh String.eqb String.eqb_spec x []). auto. Qed.

Lemma compound_done : forall E R Rc (v : pyobj) I line pos, runs E I (R ++ Rc) ->
  parse_line E (R ++ Rc) line = Ok (Some v) -> ~ In c_nl line -> Forall (fun x => size x < size v) Rc ->
  exists t I' R' w, Ok (add_instr line I) = Ok (t, I') /\ runs E I' (R ++ R') /\ denotes (R ++ R') t w v pos /\
  exists R'', Forall (fun x => size x < size v) R'' /\ (R' = R'' \/ R' = R'' ++ [v]) /\
              (compound v = true -> R' = R'' ++ [v] \/ In v (R ++ R'')).
Proof.
  intros E R Rc v I line pos Hr Hp Hnl Hs.
  destruct (add_instr_runs E I (R ++ Rc) line v pos Hr Hp Hnl) as (Rn & i & Ea & Hr' & D & Hc).
  destruct (add_instr line I) as (t & I') eqn:Et. simpl in Hr', D.
  exists t, I', (Rc ++ Rn), (ref_text i). rewrite app_assoc. split; [auto|]. split; [auto|]. split; [auto|].
  exists Rc. split; [auto|]. destruct Hc as [->|(-> & Hin)].
  - split; auto.
  - rewrite app_nil_r. split; auto.
Qed.

Theorem ser_good : forall E, (forall m g, resolve_method E m = Ok g -> sig_ok g) ->
  forall v, every spelled v -> every (made E) v -> good E v.
Proof.
  intros E SG. induction v using pyobj_rect'; intros Hs Hm; simpl in Hs, Hm.
  - (* str *)
    intros I R Hr. exists (quoted s), I, [], (raw_quoted s). rewrite app_nil_r. destruct Hs as (Hs & _). split; [reflexivity|]. split; [auto|].
    split; [apply quoted_denotes; auto|]. exists []. split; auto. split; auto. simpl; discriminate.
  - (* int *)
    intros I R Hr. destruct (decZ_num z) as (Hn & Hne). exists (dec_Z z), I, [], (dec_Z z). rewrite app_nil_r. split; [reflexivity|]. split; [auto|].
    split.
    + rewrite forallb_forall in Hn. split.
      * apply vtext_plain; auto; [apply num_plain|apply num_nospace]; apply forallb_forall; auto.
      * intros; apply arg_int.
      * intros X. apply Hn in X. discriminate.
      * intros _ X. apply Hn in X. discriminate.
    + exists []. split; auto. split; auto. simpl; discriminate.
  - (* float *)
    intros I R Hr. destruct Hs as (Hs & _). pose proof Hs as (Hf & _). destruct (float_num _ Hf) as (Hn & Hne).
    exists (s2l s), I, [], (s2l s). rewrite app_nil_r. split; [reflexivity|]. split; [auto|]. split.
    + rewrite forallb_forall in Hn. split.
      * apply vtext_plain; auto; [apply num_plain|apply num_nospace]; apply forallb_forall; auto.
      * intros; apply arg_float; auto.
      * intros X. apply Hn in X. discriminate.
      * intros _ X. apply Hn in X. discriminate.
    + exists []. split; auto. split; auto. simpl; discriminate.
  - tauto.
  - (* None *)
    intros I R Hr. exists (s2l "null"), I, [], (s2l "null"). rewrite app_nil_r. split; [reflexivity|]. split; [auto|]. split.
    + split.
      * apply vtext_plain; [apply plain_dec; reflexivity| |discriminate]. intros c Hc. simpl in Hc. intuition; subst; reflexivity.
      * reflexivity.
      * simpl. intuition discriminate.
      * simpl. intuition discriminate.
    + exists []. split; auto. split; auto. simpl; discriminate.
  - tauto.
  - tauto.
  - (* dict *)
    destruct Hs as ((ND & Hk) & Hs). destruct Hm as (_ & Hm). rewrite all_kin_In in Hs, Hm.
    assert (HG : Forall (good E) (map snd l)).
    { apply Forall_forall. intros x Hx. apply in_map_iff in Hx as ((k & y) & <- & Hx). rewrite Forall_forall in H.
      apply (H _ Hx); [eapply Hs; eauto|eapply Hm; eauto]. }
    intros I R Hr. destruct (good_list E (map snd l) HG I R Hr) as (tws & I1 & R1 & S1 & Hr1 & D1 & Z1).
    assert (Ll : length (map fst l) = length tws) by (rewrite map_length; apply F2_length in D1; rewrite map_length in D1; auto).
    assert (Kk : Forall key_ok (map fst l)).
    { apply Forall_forall. intros k X. apply in_map_iff in X as (x & <- & X). rewrite Forall_forall in Hk. apply Hk; auto. }
    destruct (kw_words (R ++ R1) (map fst l) tws (map snd l) Kk Ll D1) as (W1 & W2).
    assert (Sz : Forall (fun x => size x < size (VDict l)) R1).
    { eapply Forall_impl; [|exact Z1]. simpl. intros x (y & Hy & Hxy). apply in_map_iff in Hy as (kv & <- & Hy).
      pose proof (list_sum_In _ (fun kv => size (snd kv)) l kv Hy). simpl in *. lia. }
    cbn [ser]. rewrite ser_kws_list, S1. cbn [bind fst snd].
    change (map (fun kt : string * chars => s2l (fst kt) ++ "="%char :: snd kt)) with (map kwtext).
    assert (Hline : parse_line E (R ++ R1) (s2l "dict " ++ join sp1 (map kwtext (combine (map fst l) (map fst tws)))) = Ok (Some (VDict l))).
    { destruct l as [|kv l']; [apply parse_dict_empty|].
      set (parts := map kwtext (combine (map fst (kv :: l')) (map fst tws))) in *.
      assert (Pn : parts <> []). { destruct tws; [discriminate|]. unfold parts; simpl; discriminate. }
      replace (s2l "dict " ++ join sp1 parts) with (join sp1 (s2l "dict" :: parts)).
      2: { destruct parts; [congruence|]. reflexivity. }
      rewrite (parse_join _ _ _ _ _ (or_introl eq_refl) W1) by (intros t Ht; apply W2; auto).
      unfold kwtext. rewrite (preprocess_kws _ _ _ (map unbare (map snd (kv :: l')))).
      - cbn [bind fst snd]. rewrite combine_map_snd. rewrite supd_nil by (apply NoDup_map_key; auto).
        unfold dispatch. simpl String.eqb. cbv iota. cbn [fst snd]. unfold cmd_dict. cbn [bind]. do 3 f_equal.
        rewrite <- (map_id (kv :: l')) at 2. apply map_ext_in. intros (k & x) Hx. rewrite Forall_forall in Hk. apply Hk in Hx as (_ & Hx).
        simpl in *. destruct x; simpl in *; auto. destruct cfg; auto. discriminate.
      - auto.
      - rewrite Ll, map_length. auto.
      - apply F2_map_r, F2_map_l. eapply F2_weaken; [|exact D1]. intros tw x _ _ [_ Dv _ _]. specialize (Dv []). rewrite app_nil_r in Dv. exact Dv. }
    eapply compound_done; eauto.
    intros X. apply in_app_iff in X as [X|X]; [simpl in X; intuition discriminate|]. revert X. apply list_nl_join. intros t Ht; apply W2; auto.
  - (* literal *)
    destruct Hs as ((Hn & Hsp & Hc) & Hs). destruct Hm as (Hmv & Hm).
    specialize (IHv Hs Hm). destruct c as [c|].
    + intros I R Hr. destruct (IHv I R Hr) as (t & I1 & R1 & w & S1 & Hr1 & D1 & R1'' & Z1 & Z2 & _).
      cbn [ser]. rewrite S1. cbn [bind fst snd]. destruct Hc as (Hc & Hpos). destruct Hmv as ((c0 & s0 & Hmk) & Hrc & Hrs).
      pose proof (quoted_denotes (R ++ R1) c Hc) as Dc. pose proof (quoted_denotes (R ++ R1) s Hsp) as Ds.
      assert (K1 : key_ok "model_config") by (intros x Hx; simpl in Hx; intuition; subst; discriminate).
      assert (K2 : key_ok "merge_space") by (intros x Hx; simpl in Hx; intuition; subst; discriminate).
      assert (El : s2l "literal " ++ t ++ s2l " model_config=" ++ quoted c ++ s2l " merge_space=" ++ quoted s
                   = join sp1 [s2l "literal"; t; kwtext ("model_config", quoted c); kwtext ("merge_space", quoted s)]) by reflexivity.
      rewrite El. destruct (vtext_word t w (d_text _ _ _ _ _ D1)) as (T1 & T2).
      destruct (kwtext_word "model_config" _ _ K1 (vtext_quoted c)) as (T3 & T4).
      destruct (kwtext_word "merge_space" _ _ K2 (vtext_quoted s)) as (T5 & T6).
      assert (Hu : unbare v = v) by (destruct v; auto; discriminate).
      eapply compound_done; eauto.
      * rewrite (parse_join E (R ++ R1) "literal" _ [w; kwtext ("model_config", raw_quoted c); kwtext ("merge_space", raw_quoted s)]).
        -- change ([w; kwtext ("model_config", raw_quoted c); kwtext ("merge_space", raw_quoted s)])
             with ([w] ++ map kwtext (combine ["model_config"; "merge_space"] [raw_quoted c; raw_quoted s])).
           rewrite (preprocess_pos _ _ [v]).
           ++ unfold kwtext. rewrite (preprocess_kws _ _ _ [VStr c; VStr s]); auto.
              { cbn [bind fst snd]. unfold dispatch. simpl String.eqb. cbv iota. cbn [fst snd].
                unfold cmd_literal. simpl only_keys. simpl negb. cbv iota. cbn [bind dget dupdate]. simpl dget. cbv iota. cbn [bind config_arg].
                rewrite Hrc. cbn [bind]. rewrite Hrs. cbn [bind app]. rewrite (mk_literal_again _ _ _ _ _ _ Hmk). reflexivity. }
              repeat constructor; apply arg_str.
           ++ constructor; [|constructor]. split; [apply (d_pos _ _ _ _ _ D1); auto|].
              pose proof (d_val _ _ _ _ _ D1 []) as X. rewrite app_nil_r, Hu in X. exact X.
        -- simpl; auto.
        -- constructor; [auto|constructor; [auto|constructor; [auto|constructor]]].
        -- intros x [<-|[<-|[<-|[]]]]; auto.
      * apply list_nl_join. intros x [<-|[<-|[<-|[<-|[]]]]].
        -- simpl; intuition discriminate.
        -- apply (d_nl _ _ _ _ _ D1).
        -- apply kw_nl; auto. apply quoted_nl; auto.
        -- apply kw_nl; auto. apply quoted_nl; auto.
      * eapply Forall_impl; [|eapply good_size; eauto]. simpl. intros; lia.
    + intros I R Hr. destruct (IHv I R Hr) as (t & I1 & R1 & w & S1 & Hr1 & D1 & R1'' & Z1 & Z2 & _).
      exists t, I1, R1, w. cbn [ser]. split; [auto|]. split; [auto|].
      assert (Hu : unbare v = v) by (destruct v; auto; discriminate).
      split.
      * destruct D1 as [A1 A2 A3 A4]. split; auto.
        -- intros S. simpl unbare. rewrite A2. f_equal. auto.
        -- intros Hp. apply A4. destruct v; simpl in *; auto; discriminate.
      * exists R1. split; [|split; auto]. 2: { simpl; discriminate. }
        eapply Forall_impl; [|eapply good_size; eauto]. simpl. intros; lia.
  - (* model *)
    intros I R Hr. destruct Hs as ((Hp & Hsp & Hc) & _). destruct Hm as ((p0 & c0 & s0 & Hmk) & _).
    unfold mk_model in Hmk. apply bind_Ok in Hmk as (c1 & Hc1 & Hmk). apply bind_Ok in Hmk as (s1 & Hs1 & Hmk).
    injection Hmk; intros Es Ecc Ep; clear Hmk. subst s1 c1.
    assert (Hrs : resolve_space E s = Ok s).
    { unfold resolve_space in *. destruct (existsb (String.eqb s0) (e_spaces E)) eqn:Ex; [|discriminate]. inversion Hs1; subst. rewrite Ex. auto. }
    assert (Hp2 : one_line p) by (apply Hp).
    cbn [ser].
    assert (K1 : key_ok "model_config") by (intros x Hx; simpl in Hx; intuition; subst; discriminate).
    assert (K2 : key_ok "merge_space") by (intros x Hx; simpl in Hx; intuition; subst; discriminate).
    set (ct := match c with Some c => quoted c | None => s2l "null" end).
    assert (Dc : exists cw, denotes R ct cw (match c with Some c => VStr c | None => VNone end) True /\ config_arg E (Some match c with Some c => VStr c | None => VNone end) = Ok c \/
                 exists P, denotes R ct cw (match c with Some c => VStr c | None => VNone end) P /\ config_arg E (Some match c with Some c => VStr c | None => VNone end) = Ok c).
    { destruct c as [c|].
      - exists (raw_quoted c). right. exists (positional c). split; [apply quoted_denotes; auto|].
        destruct c0 as [c0|]; [|discriminate]. apply bind_Ok in Hc1 as (x & Hx & Hc1). inversion Hc1; subst x.
        unfold config_arg. unfold resolve_config in *. destruct (existsb (String.eqb c0) ("infer" :: e_configs E)) eqn:Ex; [|discriminate].
        inversion Hx; subst. rewrite Ex. reflexivity.
      - exists (s2l "null"). left. split; [|reflexivity]. split.
        * apply vtext_plain; [apply plain_dec; reflexivity| |discriminate]. intros c Hc'. simpl in Hc'. intuition; subst; reflexivity.
        * reflexivity.
        * simpl. intuition discriminate.
        * simpl. intuition discriminate. }
    destruct Dc as (cw & Dc).
    assert (Dc' : vtext ct cw /\ (forall S, get_arg_value (R ++ S) cw = Ok (match c with Some c => VStr c | None => VNone end)) /\ ~ In c_nl ct
                  /\ config_arg E (Some match c with Some c => VStr c | None => VNone end) = Ok c).
    { destruct Dc as [([D1 D2 D3 D4] & Hca)|(P & [D1 D2 D3 D4] & Hca)]; auto. }
    clear Dc. destruct Dc' as (C1 & C2 & C3 & C4).
    assert (El : s2l "model " ++ quoted p ++ s2l " model_config=" ++ ct ++ s2l " merge_space=" ++ quoted s
                 = join sp1 [s2l "model"; quoted p; kwtext ("model_config", ct); kwtext ("merge_space", quoted s)]) by reflexivity.
    rewrite El. destruct (vtext_word _ _ (vtext_quoted p)) as (T1 & T2).
    destruct (kwtext_word "model_config" _ _ K1 C1) as (T3 & T4).
    destruct (kwtext_word "merge_space" _ _ K2 (vtext_quoted s)) as (T5 & T6).
    apply (compound_done E R [] _ I); rewrite ?app_nil_r; auto.
    + rewrite (parse_join E R "model" _ [raw_quoted p; kwtext ("model_config", cw); kwtext ("merge_space", raw_quoted s)]).
      * change ([raw_quoted p; kwtext ("model_config", cw); kwtext ("merge_space", raw_quoted s)])
          with ([raw_quoted p] ++ map kwtext (combine ["model_config"; "merge_space"] [cw; raw_quoted s])).
        rewrite (preprocess_pos _ _ [VStr p]).
        -- unfold kwtext. rewrite (preprocess_kws _ _ _ [match c with Some c => VStr c | None => VNone end; VStr s]); auto.
           { cbn [bind fst snd]. unfold dispatch. simpl String.eqb. cbv iota. cbn [fst snd]. unfold cmd_model. cbn [app].
             simpl only_keys. simpl negb. cbv iota. simpl dget. cbv iota. rewrite C4. cbn [bind]. rewrite Hrs. cbn [bind].
             do 3 f_equal. rewrite <- Ep, s2l_l2s, path_norm_idem. reflexivity. }
           constructor; [|repeat constructor; apply arg_str]. specialize (C2 []). rewrite app_nil_r in C2. exact C2.
        -- constructor; [|constructor]. split; [|apply arg_str]. apply (d_pos _ _ _ _ _ (quoted_denotes R p Hp2)); auto.
      * simpl; auto.
      * constructor; [auto|constructor; [auto|constructor; [auto|constructor]]].
      * intros x [<-|[<-|[<-|[]]]]; auto.
    + apply list_nl_join. intros x [<-|[<-|[<-|[<-|[]]]]].
      * simpl; intuition discriminate.
      * apply quoted_nl; auto.
      * apply kw_nl; auto.
      * apply kw_nl; auto. apply quoted_nl; auto.
  - (* merge *)
    destruct Hs as ((Hmp & Hap & Hkp) & Hsa & Hsk). destruct Hm as ((g & args0 & kw0 & Hg & ND0 & Hcr) & Hma & Hmk).
    rewrite all_in_In in Hsa, Hma. rewrite all_kin_In in Hsk, Hmk.
    assert (HG1 : Forall (good E) args).
    { apply Forall_forall. intros x Hx. rewrite Forall_forall in H. apply H; auto. }
    assert (HG2 : Forall (good E) (map snd kw)).
    { apply Forall_forall. intros x Hx. apply in_map_iff in Hx as ((k & y) & <- & Hx). rewrite Forall_forall in H0.
      apply (H0 _ Hx); [eapply Hsk; eauto|eapply Hmk; eauto]. }
    intros I R Hr. destruct (good_list E args HG1 I R Hr) as (tws1 & I1 & R1 & S1 & Hr1 & D1 & Z1).
    destruct (good_list E (map snd kw) HG2 I1 (R ++ R1) Hr1) as (tws2 & I2 & R2 & S2 & Hr2 & D2 & Z2).
    cbn [ser]. rewrite S1. cbn [bind fst snd]. rewrite ser_kws_list, S2. cbn [bind fst snd].
    change (map (fun kt : string * chars => s2l (fst kt) ++ "="%char :: snd kt)) with (map kwtext).
    assert (Ll : length (map fst kw) = length tws2) by (rewrite map_length; apply F2_length in D2; rewrite map_length in D2; auto).
    assert (Kk : Forall key_ok (map fst kw)).
    { apply Forall_forall. intros k X. apply in_map_iff in X as (x & <- & X). rewrite Forall_forall in Hkp. apply Hkp; auto. }
    destruct (kw_words ((R ++ R1) ++ R2) (map fst kw) tws2 (map snd kw) Kk Ll D2) as (W1 & W2).
    assert (NDk : NoDup (map fst kw)).
    { pose proof Hcr as Hcr'. unfold create_recipe in Hcr'.
      apply bind_Ok in Hcr' as ((a1 & k1) & Hb & Hcr'). simpl fst in Hcr'; simpl snd in Hcr'.
      apply bind_Ok in Hcr' as (na & Hna & Hcr'). apply bind_Ok in Hcr' as (nk & Hnk & Hcr').
      apply bind_Ok in Hcr' as (sa & _ & Hcr'). apply bind_Ok in Hcr' as (sk & _ & Hcr'). apply bind_Ok in Hcr' as (sp & _ & Hcr').
      inversion Hcr'; subst na nk. destruct (bind_call_shape _ _ _ _ _ (SG _ _ Hg) Hb) as (_ & _ & ND & _).
      unfold convert_kwargs in Hnk. apply map_res_F2 in Hnk.
      replace (map fst kw) with (map fst k1); auto. clear -Hnk.
      induction Hnk as [|[k v] [k' v'] ? ? X ? IH]; simpl; auto. f_equal; auto.
      destruct (dget String.eqb (fst (k, v)) (g_kw g)); [|discriminate]. apply bind_Ok in X as (n & _ & X). inversion X; auto. }
    rewrite <- app_assoc in *.
    eapply compound_done; eauto.
    + assert (Wa : Forall2 tok_word (map fst tws1) (map snd tws1) /\ forall t, In t (map fst tws1) -> visible_end t).
      { clear -D1. induction D1 as [|(t & w) v ? ? D ? (IH1 & IH2)]; simpl; [split; [constructor|intros t []]|].
        destruct (vtext_word t w (d_text _ _ _ _ _ D)). split; [constructor; auto|]. intros x [<-|X]; auto. }
      destruct Wa as (Wa1 & Wa2).
      destruct (vtext_word _ _ (vtext_quoted m)) as (T1 & T2).
      rewrite (parse_join E (R ++ R1 ++ R2) "merge" _ (raw_quoted m :: map snd tws1 ++ map kwtext (combine (map fst kw) (map snd tws2)))).
      * change (raw_quoted m :: map snd tws1 ++ map kwtext (combine (map fst kw) (map snd tws2)))
          with ((raw_quoted m :: map snd tws1) ++ map kwtext (combine (map fst kw) (map snd tws2))).
        rewrite (preprocess_pos _ _ (VStr m :: map unbare args)).
        -- unfold kwtext. rewrite (preprocess_kws _ _ _ (map unbare (map snd kw))); auto.
           ++ cbn [bind fst snd]. rewrite combine_map_snd. rewrite supd_nil by (apply NoDup_map_key; auto).
              unfold dispatch. simpl String.eqb. cbv iota. cbn [fst snd app]. unfold cmd_merge. rewrite Hg. cbn [bind].
              rewrite (create_recipe_again E m g args0 kw0); auto. { eapply SG; eauto. }
              { intros a Ha. specialize (Hma a Ha). destruct a; simpl in Hma; tauto. }
              { intros k a Ha. specialize (Hmk k a Ha). destruct a; simpl in Hmk; tauto. }
           ++ rewrite Ll, map_length; auto.
           ++ apply F2_map_r, F2_map_l. eapply F2_weaken; [|exact D2]. intros tw x _ _ [_ Dv _ _]. specialize (Dv []). rewrite app_nil_r in Dv. exact Dv.
        -- constructor.
           ++ split; [apply (d_pos _ _ _ _ _ (quoted_denotes R m (proj1 Hmp))); auto|apply arg_str].
           ++ apply F2_map_r, F2_map_l. eapply F2_weaken; [|exact D1]. intros tw x _ Hx [_ Dv _ Dp]. split.
              ** apply Dp. rewrite Forall_forall in Hap. apply Hap; auto.
              ** specialize (Dv R2). rewrite <- app_assoc in Dv. exact Dv.
      * simpl; auto.
      * constructor; auto. apply Forall2_app; auto.
      * intros t [<-|X]; auto. apply in_app_iff in X as [X|X]; auto. apply W2; auto.
    + apply list_nl_join. intros t [<-|[<-|X]].
      * simpl; intuition discriminate.
      * apply quoted_nl; auto. apply Hmp.
      * apply in_app_iff in X as [X|X]; [|apply W2; auto].
        clear -D1 X. induction D1 as [|(t0 & w) v ? ? D ? IH]; simpl in X; [destruct X|]. destruct X as [<-|X]; auto. apply (d_nl _ _ _ _ _ D).
    + apply Forall_app. split.
      * eapply Forall_impl; [|exact Z1]. simpl. intros x (y & Hy & Hxy). pose proof (list_sum_In _ size args y Hy). lia.
      * eapply Forall_impl; [|exact Z2]. simpl. intros x (y & Hy & Hxy). apply in_map_iff in Hy as (kv & <- & Hy).
        pose proof (list_sum_In _ (fun kv => size (snd kv)) kw kv Hy). simpl in *. lia.
Qed.

Theorem roundtrip : forall E, (forall m g, resolve_method E m = Ok g -> sig_ok g) ->
  forall v, every spelled v -> every (made E) v -> is_node v = true -> bare v = false ->
  exists text, serialize v = Ok text /\ deserialize E text = Ok v.
Proof.
  intros E SG v Hs Hm Hn Hb.
  destruct (ser_good E SG v Hs Hm [] []) as (t & I & R & w & S1 & (Hr & Hl & Hnl) & D & R'' & Z1 & Z2 & Z3).
  { split; [reflexivity|]. split; auto. }
  assert (Hc : compound v = true) by (destruct v; try discriminate; auto; destruct cfg; auto; discriminate).
  assert (HR : R = R'' ++ [v]).
  { destruct (Z3 Hc) as [X|X]; auto. simpl in X. rewrite Forall_forall in Z1. apply Z1 in X. lia. }
  unfold serialize. rewrite S1. cbn [bind snd]. eexists. split; [reflexivity|].
  unfold deserialize. rewrite split_join; [|discriminate|].
  - unfold deserialize_lines. change (starts_with (s2l "version") version_header) with true. simpl negb. cbv iota.
    destruct (list_eq_dec ascii_dec version_header version_header); [|congruence]. simpl in Hr. rewrite Hr. cbn [bind].
    unfold last_result. rewrite HR, rev_app_distr. reflexivity.
  - intros p [<-|Hp]; [simpl; intuition discriminate|]. rewrite Forall_forall in Hnl. apply Hnl; auto.
Qed.
