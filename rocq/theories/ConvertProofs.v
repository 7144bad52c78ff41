(** Correctness of the converter search. *)
From Coq Require Import String Ascii List Bool Arith Lia.
From Verif Require Import Base ModelRecipe ModelOps ModelConvert SpecConvert.
Import ListNotations.
Open Scope string_scope.
Open Scope list_scope.
Open Scope nat_scope.

Definition edge (g : graph) (u v e : string) : Prop := exists es, sget u g = Some es /\ In (v, e) es.
Definition closed (g : graph) : Prop := forall u v e, edge g u v e -> In v (map fst g).

(** walks, extended at the end *)
Inductive walk (g : graph) (a : string) : string -> list string -> Prop :=
| walk_nil : walk g a a []
| walk_snoc : forall u v e l, walk g a u l -> edge g u v e -> walk g a v (l ++ [e]).

(** ** the heap *)
Lemma item_leb_fst : forall a b, item_leb a b = true -> fst a <= fst b.
Proof. intros a b H. unfold item_leb in H. apply orb_true_iff in H as [H|H]; [apply Nat.ltb_lt in H; lia|]. apply andb_true_iff in H as (H & _). apply Nat.eqb_eq in H. lia. Qed.
Lemma item_leb_fst' : forall a b, item_leb a b = false -> fst b <= fst a.
Proof. intros a b H. unfold item_leb in H. apply orb_false_iff in H as (H & _). apply Nat.ltb_ge in H. lia. Qed.

Lemma pop_min_spec : forall rest best m r, pop_min best rest = (m, r) ->
  (forall x, In x (best :: rest) <-> x = m \/ In x r) /\ (forall x, In x (best :: rest) -> fst m <= fst x) /\
  length r = length rest /\ (NoDup (map snd (best :: rest)) -> NoDup (map snd (m :: r))).
Proof.
  induction rest as [|x rest IH]; intros best m r H; simpl in H.
  - inversion H; subst. repeat split; simpl; auto; try tauto; intuition; subst; auto.
  - destruct (item_leb best x) eqn:E.
    + destruct (pop_min best rest) as (m' & r') eqn:Ep. inversion H; subst. destruct (IH _ _ _ Ep) as (I1 & I2 & I3 & I4).
      split; [|split; [|split]].
      * intros y. specialize (I1 y). simpl in *. intuition.
      * intros y [<-|[<-|Hy]]; [apply I2; left; auto| |apply I2; right; auto]. apply item_leb_fst in E. specialize (I2 best (or_introl eq_refl)). lia.
      * simpl; auto.
      * intros N. simpl in N. inversion N as [|? ? N1 N2]; subst. inversion N2 as [|? ? N3 N4]; subst.
        assert (N5 : NoDup (map snd (m :: r'))) by (apply I4; simpl; constructor; auto; simpl in N1; tauto).
        simpl in *. inversion N5 as [|? ? N6 N7]; subst.
        assert (Hx : forall y, In y (m :: r') -> snd y <> snd x).
        { intros y Hy Ey. assert (Y : In y (best :: rest)) by (apply I1; simpl in Hy; intuition). destruct Y as [<-|Y]; [apply N1; left; auto|]. apply N3. rewrite <- Ey. apply in_map; auto. }
        constructor; [|constructor; auto].
        -- simpl. intros [X|X]; [apply (Hx m); [left; auto|auto]|auto].
        -- intros X. apply in_map_iff in X as (y & Ey & Hy). apply (Hx y); [right; auto|auto].
    + destruct (pop_min x rest) as (m' & r') eqn:Ep. inversion H; subst. destruct (IH _ _ _ Ep) as (I1 & I2 & I3 & I4).
      split; [|split; [|split]].
      * intros y. specialize (I1 y). simpl in *. intuition.
      * intros y [<-|[<-|Hy]]; [|apply I2; left; auto|apply I2; right; auto]. apply item_leb_fst' in E. specialize (I2 x (or_introl eq_refl)). lia.
      * simpl; auto.
      * intros N. simpl in N. inversion N as [|? ? N1 N2]; subst.
        assert (N5 : NoDup (map snd (m :: r'))) by (apply I4; auto).
        simpl in *. inversion N5 as [|? ? N6 N7]; subst.
        assert (Hx : forall y, In y (m :: r') -> snd y <> snd best).
        { intros y Hy Ey. assert (Y : In y (x :: rest)) by (apply I1; simpl in Hy; intuition). apply N1. rewrite <- Ey. destruct Y as [<-|Y]; [left; auto|right; apply in_map; auto]. }
        constructor; [|constructor; auto].
        -- simpl. intros [X|X]; [apply (Hx m); [left; auto|auto]|auto].
        -- intros X. apply in_map_iff in X as (y & Ey & Hy). apply (Hx y); [right; auto|auto].
Qed.

(** ** the invariant *)
Definition is_inf (kv : string * option nat) : bool := match snd kv with None => true | Some _ => false end.
Definition ninf (d : list (string * option nat)) : nat := length (filter is_inf d).

Lemma ninf_le : forall d, ninf d <= length d.
Proof. intros d. unfold ninf. induction d as [|x d IH]; simpl; auto. destruct (is_inf x); simpl; lia. Qed.

Lemma ninf_set : forall d v n, sget v d = Some None -> S (ninf (sset v (Some n) d)) = ninf d /\ map fst (sset v (Some n) d) = map fst d.
Proof.
  induction d as [|(k & o) d IH]; intros v n H; simpl in H; [discriminate|]. simpl. unfold ninf in *. simpl.
  destruct (String.eqb_spec v k) as [->|].
  - inversion H; subst. simpl. auto.
  - destruct (IH v n H) as (I1 & I2). simpl. destruct o; simpl; rewrite I2; auto.
Qed.

Record inv (g : graph) (start : string) (D : nat) (except : option (string * list (string * string))) (s : dstate) : Prop := Inv {
  i_keys : forall v, In v (map fst g) -> In v (map fst (d_dist s));
  i_start : sget start (d_dist s) = Some (Some 0);
  i_heap : forall d v, In (d, v) (d_heap s) -> sget v (d_dist s) = Some (Some d) /\ D <= d <= S D;
  i_nodup : NoDup (map snd (d_heap s));
  i_bound : forall v d, sget v (d_dist s) = Some (Some d) -> d <= S D;
  i_count : forall v d, sget v (d_dist s) = Some (Some d) -> d + ninf (d_dist s) < length (d_dist s);
  i_tree : forall v d, sget v (d_dist s) = Some (Some d) -> (v = start /\ d = 0) \/
    exists u e d', v <> start /\ d = S d' /\ sget u (d_dist s) = Some (Some d') /\ sget v (d_pred s) = Some (Some u) /\ sget v (d_edge s) = Some (Some e) /\ edge g u v e;
  i_done : forall u d, sget u (d_dist s) = Some (Some d) -> In (d, u) (d_heap s) \/
    forall v e, edge g u v e -> (exists d', sget v (d_dist s) = Some (Some d') /\ d' <= S d) \/
      match except with Some (cur, rest) => cur = u /\ In (v, e) rest | None => False end }.

Lemma relax_inv : forall g start D cur v e rest s, closed g -> edge g cur v e -> sget cur (d_dist s) = Some (Some D) ->
  inv g start D (Some (cur, (v, e) :: rest)) s ->
  exists s', relax cur D s (v, e) = Ok s' /\ inv g start D (Some (cur, rest)) s' /\ sget cur (d_dist s') = Some (Some D) /\
    length (d_heap s') + ninf (d_dist s') = length (d_heap s) + ninf (d_dist s) /\ map fst (d_dist s') = map fst (d_dist s).
Proof.
  intros g start D cur v e rest s Cl He Hc I. destruct I as [I1 I2 I3 I4 I5 I6 I7 I8]. unfold relax, infinite.
  assert (Kv : In v (map fst (d_dist s))) by (apply I1; eapply Cl; eauto).
  destruct (sget v (d_dist s)) as [o|] eqn:Ev; [|apply (dget_None String.eqb String.eqb_spec) in Ev; tauto]. cbn [bind].
  destruct o as [d|].
  - destruct (Nat.ltb_spec (S D) d) as [Hlt|Hge]; [specialize (I5 v d Ev); lia|].
    exists s. split; auto. split; [|auto]. constructor; auto.
    intros u d' Hu. destruct (I8 u d' Hu) as [X|X]; [left; auto|right]. intros w f Hw. destruct (X w f Hw) as [Y|(-> & [Y|Y])]; auto.
    inversion Y; subst. left. exists d. split; auto. rewrite Hc in Hu. inversion Hu; subst. auto.
  - destruct (ninf_set (d_dist s) v (S D) Ev) as (N1 & N2).
    assert (Hcv : cur <> v) by congruence. assert (Hsv : start <> v) by congruence.
    assert (Hold : forall u d, sget u (d_dist s) = Some (Some d) -> sget u (sset v (Some (S D)) (d_dist s)) = Some (Some d)).
    { intros u d Hu. rewrite (dget_dset String.eqb String.eqb_spec). destruct (String.eqb_spec u v) as [->|]; [congruence|auto]. }
    assert (Hnew : forall u d, sget u (sset v (Some (S D)) (d_dist s)) = Some (Some d) -> (u = v /\ d = S D) \/ (u <> v /\ sget u (d_dist s) = Some (Some d))).
    { intros u d Hu. rewrite (dget_dset String.eqb String.eqb_spec) in Hu. destruct (String.eqb_spec u v) as [->|]; [left; inversion Hu; auto|auto]. }
    assert (Len : length (sset v (Some (S D)) (d_dist s)) = length (d_dist s)) by (rewrite <- (map_length fst), N2, map_length; auto).
    eexists. split; [reflexivity|]. split; [|split; [|split]]; simpl.
    + constructor; simpl.
      * rewrite N2. auto.
      * auto.
      * intros d w [X|X]; [inversion X; subst; rewrite (dget_dset String.eqb String.eqb_spec), String.eqb_refl; split; auto; lia|].
        destruct (I3 d w X). split; auto.
      * constructor; auto. intros X. apply in_map_iff in X as ((d & w) & Ew & X). simpl in Ew. subst. apply I3 in X. destruct X; congruence.
      * intros w d Hw. destruct (Hnew _ _ Hw) as [(-> & ->)|(_ & X)]; [lia|eauto].
      * intros w d Hw. rewrite Len. destruct (Hnew _ _ Hw) as [(-> & ->)|(_ & X)].
        -- specialize (I6 cur D Hc). lia.
        -- specialize (I6 w d X). lia.
      * intros w d Hw. destruct (Hnew _ _ Hw) as [(-> & ->)|(Hne & X)].
        -- right. exists cur, e, D. rewrite !(dget_dset String.eqb String.eqb_spec), String.eqb_refl. destruct (String.eqb_spec cur v); [congruence|]. repeat split; auto.
        -- destruct (I7 w d X) as [Y|(u & f & d' & Y1 & Y2 & Y3 & Y4 & Y5 & Y6)]; [left; auto|right]. exists u, f, d'.
           rewrite !(dget_dset String.eqb String.eqb_spec _ _ _ (d_pred s)), !(dget_dset String.eqb String.eqb_spec _ _ _ (d_edge s)). destruct (String.eqb_spec w v); [congruence|]. repeat split; auto.
      * intros u d Hu. destruct (Hnew _ _ Hu) as [(-> & ->)|(Hne & X)]; [left; left; auto|].
        destruct (I8 u d X) as [Y|Y]; [left; right; auto|right]. intros w f Hw. destruct (Y w f Hw) as [(d' & Z1 & Z2)|(-> & [Z|Z])].
        -- left. exists d'. auto.
        -- inversion Z; subst. left. exists (S D). rewrite (dget_dset String.eqb String.eqb_spec), String.eqb_refl. split; auto. rewrite Hc in X. inversion X; subst. auto.
        -- right. auto.
    + auto.
    + lia.
    + auto.
Qed.

Lemma relax_all_inv : forall g start D cur es s, closed g -> (forall v e, In (v, e) es -> edge g cur v e) -> sget cur (d_dist s) = Some (Some D) ->
  inv g start D (Some (cur, es)) s ->
  exists s', relax_all cur D s es = Ok s' /\ inv g start D None s' /\
    length (d_heap s') + ninf (d_dist s') = length (d_heap s) + ninf (d_dist s) /\ map fst (d_dist s') = map fst (d_dist s).
Proof.
  intros g start D cur. induction es as [|(v & e) es IH]; intros s Cl He Hc I.
  - exists s. simpl. split; auto. split; auto. destruct I. constructor; auto.
    intros u d Hu. destruct (i_done0 u d Hu) as [X|X]; [left; auto|right]. intros w f Hw. destruct (X w f Hw) as [Y|(_ & [])]; auto.
  - destruct (relax_inv g start D cur v e es s Cl (He v e (or_introl eq_refl)) Hc I) as (s1 & R1 & I1 & C1 & M1 & L1).
    destruct (IH s1 Cl (fun w f Hw => He w f (or_intror Hw)) C1 I1) as (s2 & R2 & I2 & M2 & L2).
    exists s2. cbn [relax_all]. rewrite R1. cbn [bind]. split; auto. split; auto. split; [lia|congruence].
Qed.

(** every walk reaches a settled node or passes a node of the heap *)
Lemma walk_frontier : forall g start D s, inv g start D None s -> forall v l, walk g start v l ->
  (exists d, sget v (d_dist s) = Some (Some d) /\ d <= length l) \/ (exists d w, In (d, w) (d_heap s) /\ d <= length l).
Proof.
  intros g start D s I v l W. induction W as [|u v e l W IH He].
  - left. exists 0. split; auto. apply (i_start _ _ _ _ _ I).
  - rewrite app_length. simpl. destruct IH as [(d & Hd & Hl)|(d & w & Hw & Hl)].
    + destruct (i_done _ _ _ _ _ I u d Hd) as [X|X]; [right; exists d, u; split; auto; lia|].
      destruct (X v e He) as [(d' & Y1 & Y2)|[]]. left. exists d'. split; auto. lia.
    + right. exists d, w. split; auto. lia.
Qed.

Lemma pop_inv : forall g start D s x rest dist cur heap, inv g start D None s -> d_heap s = x :: rest -> pop_min x rest = ((dist, cur), heap) ->
  sget cur (d_dist s) = Some (Some dist) /\
  (forall es, sget cur g = Some es -> inv g start dist (Some (cur, es)) (DState (d_dist s) (d_pred s) (d_edge s) heap)).
Proof.
  intros g start D s x rest dist cur heap I Hh Hp. pose proof (pop_min_spec _ _ _ _ Hp) as (P1 & P2 & P3 & P4).
  destruct I as [I1 I2 I3 I4 I5 I6 I7 I8]. rewrite Hh in *.
  assert (Hm : In (dist, cur) (x :: rest)) by (apply P1; auto). destruct (I3 _ _ Hm) as (Hc & HD). split; auto.
  intros es Hes. specialize (P4 I4). simpl in P4. inversion P4 as [|? ? P5 P6]; subst.
  constructor; simpl; auto.
  - intros d v Hv. assert (Hv' : In (d, v) (x :: rest)) by (apply P1; auto). destruct (I3 _ _ Hv') as (A & B). split; auto. specialize (P2 _ Hv'). simpl in P2. lia.
  - intros v d Hv. specialize (I5 v d Hv). lia.
  - intros u d Hu. destruct (I8 u d Hu) as [X|X].
    + apply P1 in X as [X|X]; [|left; auto]. inversion X; subst. right. intros v e (es' & He & Hi). right. split; auto. congruence.
    + right. intros v e He. destruct (X v e He) as [Y|[]]. auto.
Qed.

(** finite distances belong to nodes of the graph *)
Lemma finite_known : forall g start D x s u d, closed g -> inv g start D x s -> sget u (d_dist s) = Some (Some d) -> u = start \/ In u (map fst g).
Proof.
  intros g start D x s u d Cl I H. destruct (i_tree _ _ _ _ _ I u d H) as [(-> & _)|(w & e & d' & _ & _ & _ & _ & _ & He)]; auto.
  right. eapply Cl; eauto.
Qed.

(** what the search guarantees when it ends *)
Definition finished (g : graph) (start goal : string) (s : dstate) : Prop :=
  (forall l, walk g start goal l -> exists d, sget goal (d_dist s) = Some (Some d) /\ d <= length l) /\
  (forall v d, sget v (d_dist s) = Some (Some d) -> d < length (d_dist s)) /\
  (forall v d, sget v (d_dist s) = Some (Some d) -> (v = start /\ d = 0) \/
    exists u e d', v <> start /\ d = S d' /\ sget u (d_dist s) = Some (Some d') /\ sget v (d_pred s) = Some (Some u) /\ sget v (d_edge s) = Some (Some e) /\ edge g u v e).

Lemma inv_finished : forall g start goal D s heap, inv g start D None s ->
  (forall l, walk g start goal l -> exists d, sget goal (d_dist s) = Some (Some d) /\ d <= length l) ->
  finished g start goal (DState (d_dist s) (d_pred s) (d_edge s) heap).
Proof.
  intros g start goal D s heap I H. split; [|split]; simpl; auto.
  - intros v d Hv. pose proof (i_count _ _ _ _ _ I v d Hv). lia.
  - exact (i_tree _ _ _ _ _ I).
Qed.

Lemma search_finished : forall g start goal, closed g -> forall fuel D s, inv g start D None s ->
  length (d_heap s) + ninf (d_dist s) <= fuel ->
  (exists s', search fuel g goal s = Ok s' /\ map fst (d_dist s') = map fst (d_dist s) /\ finished g start goal s') \/
  (~ In start (map fst g) /\ start <> goal /\ search fuel g goal s = Err KeyError).
Proof.
  intros g start goal Cl.
  assert (Base : forall D s, inv g start D None s -> d_heap s = [] -> finished g start goal s).
  { intros D s I Hh. destruct s as [a b c h]. simpl in Hh. subst. eapply (inv_finished g start goal D (DState a b c []) [] I).
    intros l W. destruct (walk_frontier _ _ _ _ I _ _ W) as [X|(d & w & X & _)]; auto. destruct X. }
  induction fuel as [|f IH]; intros D s I M.
  - destruct (d_heap s) as [|x rest] eqn:Hh; [|simpl in M; lia].
    left. exists s. simpl. rewrite Hh. split; auto. split; auto. eapply Base; eauto.
  - cbn [search]. destruct (d_heap s) as [|x rest] eqn:Hh.
    + left. exists s. split; auto. split; auto. eapply Base; eauto.
    + destruct (pop_min x rest) as ((dist & cur) & heap) eqn:Hp.
      destruct (pop_inv _ _ _ _ _ _ _ _ _ I Hh Hp) as (Hc & Hi). pose proof (pop_min_spec _ _ _ _ Hp) as (P1 & P2 & P3 & P4).
      unfold infinite. cbn [d_dist]. rewrite Hc. cbn [bind]. rewrite Nat.ltb_irrefl.
      destruct (String.eqb_spec cur goal) as [->|Hne].
      * left. eexists. split; [reflexivity|]. cbn [d_dist]. split; auto. eapply inv_finished; eauto.
        intros l W. exists dist. split; auto. destruct (walk_frontier _ _ _ _ I _ _ W) as [(d & X & Y)|(d & w & X & Y)].
        -- rewrite Hc in X. inversion X; subst. auto.
        -- rewrite Hh in X. specialize (P2 _ X). simpl in P2. lia.
      * destruct (sget cur g) as [es|] eqn:Ees.
        -- destruct (relax_all_inv g start dist cur es (DState (d_dist s) (d_pred s) (d_edge s) heap) Cl) as (s1 & R1 & I1 & M1 & L1); auto.
           { intros v e Hv. exists es. auto. }
           rewrite R1. cbn [bind]. cbn [d_heap d_dist] in M1, L1. simpl in M.
           destruct (IH dist s1 I1) as [(s2 & R2 & K2 & F2)|(N1 & N2 & N3)]; [lia| |].
           ++ left. exists s2. rewrite R2. split; auto. split; [congruence|auto].
           ++ right. rewrite N3. auto.
        -- right. apply (dget_None String.eqb String.eqb_spec) in Ees.
           destruct (finite_known _ _ _ _ _ _ _ Cl I Hc) as [->|]; [|tauto]. auto.
Qed.

Lemma walk_back_ok : forall g start goal s, finished g start goal s -> forall d v fuel, sget v (d_dist s) = Some (Some d) -> d <= fuel ->
  exists l, walk_back fuel s start v = Ok l /\ length l = d /\ walk g start v (rev l).
Proof.
  intros g start goal s (_ & _ & T). induction d as [|d IH]; intros v fuel Hv Hf.
  - destruct (T v 0 Hv) as [(-> & _)|(u & e & d' & _ & X & _)]; [|lia]. exists []. destruct fuel; simpl; rewrite String.eqb_refl; repeat split; auto; constructor.
  - destruct (T v (S d) Hv) as [(_ & X)|(u & e & d' & X1 & X2 & X3 & X4 & X5 & X6)]; [lia|]. inversion X2; subst d'.
    destruct fuel as [|f]; [lia|]. cbn [walk_back]. destruct (String.eqb_spec v start); [congruence|]. rewrite X5, X4.
    destruct (IH u f X3) as (l & L1 & L2 & L3); [lia|]. rewrite L1. cbn [bind]. exists (e :: l). split; auto. split; [simpl; auto|].
    simpl. eapply walk_snoc; eauto.
Qed.

(** ** the initial state *)
Lemma init_get : forall B (g : graph) v, In v (map fst g) -> sget v (map (fun kv => (fst kv, @None B)) g) = Some None.
Proof. induction g as [|(k & l) g IH]; simpl; intros v H; [tauto|]. destruct (String.eqb_spec v k) as [->|Hne]; auto. apply IH. destruct H; [congruence|auto]. Qed.
Lemma init_get' : forall B (g : graph) v o, sget v (map (fun kv => (fst kv, @None B)) g) = Some o -> o = None /\ In v (map fst g).
Proof.
  induction g as [|(k & l) g IH]; simpl; intros v o H; [discriminate|]. destruct (String.eqb_spec v k) as [->|Hne]; [inversion H; auto|].
  destruct (IH v o H). auto.
Qed.

Lemma ninf_init : forall (g : graph), ninf (map (fun kv => (fst kv, None)) g) = length g.
Proof. unfold ninf. induction g as [|x g IH]; simpl; auto. Qed.

Lemma init_count : forall (g : graph) start, let d := sset start (Some 0) (map (fun kv => (fst kv, None)) g) in
  ninf d < length d /\ ninf d <= length g /\ length d <= S (length g) /\ (forall v, In v (map fst d) <-> v = start \/ In v (map fst g)).
Proof.
  intros g start d. subst d. destruct (in_dec string_dec start (map fst g)) as [Hin|Hout].
  - destruct (ninf_set (map (fun kv => (fst kv, None)) g) start 0 (init_get _ g start Hin)) as (N1 & N2).
    assert (L : length (sset start (Some 0) (map (fun kv : string * list (string * string) => (fst kv, None)) g)) = length g) by (rewrite <- (map_length fst), N2, !map_length; auto).
    rewrite ninf_init in N1. rewrite L, N2, map_map. simpl. repeat split; try lia; auto. intros [->|X]; auto.
  - rewrite (dset_fresh String.eqb String.eqb_spec) by (rewrite map_map; auto). unfold ninf. rewrite filter_app, !app_length. simpl.
    fold (ninf (map (fun kv : string * list (string * string) => (fst kv, None)) g)). rewrite ninf_init, map_length.
    repeat split; try lia.
    + rewrite map_app, map_map, in_app_iff. simpl. intuition.
    + rewrite map_app, map_map, in_app_iff. simpl. intuition.
Qed.

Lemma init_inv : forall g start, closed g ->
  inv g start 0 None (DState (sset start (Some 0) (map (fun kv => (fst kv, None)) g)) (map (fun kv => (fst kv, None)) g) (map (fun kv => (fst kv, None)) g) [(0, start)]).
Proof.
  intros g start Cl. destruct (init_count g start) as (C1 & C2 & C3 & C4).
  assert (Only : forall v d, sget v (sset start (Some 0) (map (fun kv : string * list (string * string) => (fst kv, None)) g)) = Some (Some d) -> v = start /\ d = 0).
  { intros v d H. rewrite (dget_dset String.eqb String.eqb_spec) in H. destruct (String.eqb_spec v start) as [->|]; [inversion H; auto|]. apply init_get' in H as (H & _). discriminate. }
  constructor; cbn [d_dist d_pred d_edge d_heap].
  - intros v Hv. apply C4. auto.
  - rewrite (dget_dset String.eqb String.eqb_spec), String.eqb_refl. auto.
  - intros d v [X|[]]. inversion X; subst. rewrite (dget_dset String.eqb String.eqb_spec), String.eqb_refl. auto.
  - constructor; [simpl; tauto|constructor].
  - intros v d H. apply Only in H as (_ & ->). auto.
  - intros v d H. apply Only in H as (_ & ->). auto.
  - intros v d H. left. auto.
  - intros u d H. apply Only in H as (-> & ->). left. left; auto.
Qed.

(** ** the whole search *)
Theorem dijkstra_spec : forall g start goal, closed g ->
  (start = goal \/ In start (map fst g) /\ In goal (map fst g) ->
   (exists l, dijkstra g start goal = Ok (Some l) /\ walk g start goal l /\ forall l', walk g start goal l' -> length l <= length l') \/
   (dijkstra g start goal = Ok None /\ forall l, ~ walk g start goal l)) /\
  (start <> goal -> ~ (In start (map fst g) /\ In goal (map fst g)) -> dijkstra g start goal = Err KeyError).
Proof.
  intros g start goal Cl. destruct (init_count g start) as (C1 & C2 & C3 & C4). pose proof (init_inv g start Cl) as I0.
  unfold dijkstra. set (s0 := DState _ _ _ _) in *.
  destruct (search_finished g start goal Cl (S (length g)) 0 s0 I0) as [(s & R & K & F)|(N1 & N2 & N3)].
  { simpl. lia. }
  - rewrite R. cbn [bind]. assert (L : length (d_dist s) <= S (length g)) by (rewrite <- (map_length fst), K, map_length; auto).
    split.
    + intros Hk. unfold infinite. destruct (sget goal (d_dist s)) as [[d|]|] eqn:Eg; cbn [bind].
      * left. pose proof F as (F1 & F2 & F3). destruct (walk_back_ok g start goal s F d goal (S (length g)) Eg) as (l & L1 & L2 & L3).
        { specialize (F2 goal d Eg). lia. }
        rewrite L1. cbn [bind]. exists (rev l). split; auto. split; auto. intros l' W. destruct (F1 l' W) as (d' & D1 & D2). rewrite rev_length. congruence.
      * right. split; auto. intros l W. destruct F as (F1 & _). destruct (F1 l W) as (d & X & _). congruence.
      * exfalso. apply (dget_None String.eqb String.eqb_spec) in Eg. apply Eg. rewrite K. apply C4. intuition.
    + intros Hne Hk. unfold infinite. destruct (sget goal (d_dist s)) as [o|] eqn:Eg; auto. exfalso. apply Hk.
      assert (In goal (map fst g)).
      { apply (dget_In String.eqb String.eqb_spec) in Eg. apply (in_map fst) in Eg. rewrite K in Eg. apply C4 in Eg as [X|X]; auto. simpl in X. congruence. }
      split; auto.
      (** the start is in the graph, else its adjacency list could not be read *)
      destruct (in_dec string_dec start (map fst g)); auto. exfalso.
      cbn in R. rewrite String.eqb_refl in R || idtac.
      unfold infinite in R. cbn [d_dist] in R.
      assert (G : sget start (sset start (Some 0) (map (fun kv : string * list (string * string) => (fst kv, None)) g)) = Some (Some 0)) by (rewrite (dget_dset String.eqb String.eqb_spec), String.eqb_refl; auto).
      rewrite G in R. cbn in R. destruct (String.eqb_spec start goal); [congruence|].
      rewrite (proj2 (dget_None String.eqb String.eqb_spec start g)) in R by auto. discriminate.
  - split.
    + intros [X|(X & _)]; [congruence|tauto].
    + intros _ _. rewrite N3. auto.
Qed.

(** ** the graph of the converters *)
Lemma setdefault_get : forall k g v, sget v (setdefault k g) = match sget v g with Some l => Some l | None => if String.eqb v k then Some [] else None end.
Proof.
  intros k g v. unfold setdefault. destruct (sget k g) eqn:E.
  - destruct (sget v g) eqn:Ev; auto. destruct (String.eqb_spec v k); [congruence|auto].
  - rewrite (dget_dset String.eqb String.eqb_spec). destruct (String.eqb_spec v k) as [->|]; [rewrite E; auto|destruct (sget v g); auto].
Qed.

Lemma add_converter_get : forall g c v, sget v (add_converter g c) =
  if String.eqb v (c_src c) then Some (match sget v g with Some l => l | None => [] end ++ [(c_tgt c, c_id c)])
  else match sget v g with Some l => Some l | None => if String.eqb v (c_tgt c) then Some [] else None end.
Proof.
  intros g c v. unfold add_converter. rewrite (dget_dset String.eqb String.eqb_spec), !setdefault_get, String.eqb_refl.
  destruct (String.eqb_spec v (c_src c)) as [->|].
  - destruct (sget (c_src c) g); auto.
  - destruct (sget v g); auto.
Qed.

Lemma get_In_keys : forall V k (d : list (string * V)), In k (map fst d) <-> exists v, sget k d = Some v.
Proof.
  intros V k d. split.
  - intros H. destruct (sget k d) eqn:E; eauto. apply (dget_None String.eqb String.eqb_spec) in E. tauto.
  - intros (v & H). apply (dget_In String.eqb String.eqb_spec) in H. apply (in_map fst) in H; auto.
Qed.

Lemma paths_spec : forall cs,
  (forall u v e, edge (converter_paths cs) u v e <-> exists c, In c cs /\ c_src c = u /\ c_tgt c = v /\ c_id c = e) /\
  (forall u, In u (map fst (converter_paths cs)) <-> known cs u).
Proof.
  intros cs. unfold converter_paths. rewrite <- fold_left_rev_right.
  assert (G : forall l, (forall u v e, edge (fold_right (fun y x => add_converter x y) [] l) u v e <-> exists c, In c l /\ c_src c = u /\ c_tgt c = v /\ c_id c = e) /\
    (forall u, In u (map fst (fold_right (fun y x => add_converter x y) [] l)) <-> known l u)).
  { induction l as [|c l (I1 & I2)]; simpl.
    - split.
      + intros u v e. split; [intros (es & X & _); discriminate|intros (c & [] & _)].
      + intros u. split; [tauto|intros (c & [] & _)].
    - set (g := fold_right (fun y x => add_converter x y) [] l) in *. split.
      + intros u v e. split.
        * intros (es & X & Y). rewrite add_converter_get in X. destruct (String.eqb_spec u (c_src c)) as [->|].
          -- inversion X; subst. apply in_app_iff in Y as [Y|[Y|[]]].
             ++ destruct (sget (c_src c) g) as [l0|] eqn:E0; [|destruct Y].
                destruct (proj1 (I1 (c_src c) v e)) as (c' & A & B); [exists l0; auto|]. exists c'. auto.
             ++ inversion Y; subst. exists c. auto.
          -- destruct (sget u g) as [l0|] eqn:E0.
             ++ inversion X; subst. destruct (proj1 (I1 u v e)) as (c' & A & B); [exists es; auto|]. exists c'. auto.
             ++ destruct (String.eqb u (c_tgt c)); inversion X; subst. destruct Y.
        * intros (c' & [<-|Hc] & <- & <- & <-).
          -- unfold edge. rewrite add_converter_get, String.eqb_refl. eexists; split; [reflexivity|]. apply in_app_iff. right; left; auto.
          -- destruct (proj2 (I1 (c_src c') (c_tgt c') (c_id c'))) as (es & A & B); [exists c'; auto|].
             unfold edge. rewrite add_converter_get. rewrite A. destruct (String.eqb_spec (c_src c') (c_src c)).
             ++ eexists; split; [reflexivity|]. apply in_app_iff. left; auto.
             ++ eauto.
      + intros u. rewrite get_In_keys, add_converter_get. specialize (I2 u). rewrite get_In_keys in I2. unfold known in *. split.
        * intros (v & Hv). destruct (String.eqb_spec u (c_src c)) as [->|]; [exists c; simpl; auto|].
          destruct (sget u g) eqn:E0.
          -- destruct (proj1 I2) as (c' & A & B); eauto. exists c'. simpl; auto.
          -- destruct (String.eqb_spec u (c_tgt c)) as [->|]; [exists c; simpl; auto|discriminate].
        * intros (c' & [<-|Hc] & B).
          -- destruct (String.eqb_spec u (c_src c)) as [->|]; eauto. destruct B as [B|B]; [congruence|]. destruct (sget u g); eauto. rewrite <- B, String.eqb_refl. eauto.
          -- destruct (proj2 I2) as (v & Hv); eauto. rewrite Hv. destruct (String.eqb u (c_src c)); eauto. }
  destruct (G (rev cs)) as (G1 & G2). split.
  - intros u v e. rewrite G1. split; intros (c & A & B); exists c; split; auto; [apply in_rev|apply in_rev in A]; auto.
  - intros u. rewrite G2. unfold known. split; intros (c & A & B); exists c; split; auto; [apply in_rev|apply in_rev in A]; auto.
Qed.

Lemma paths_closed : forall cs, closed (converter_paths cs).
Proof. intros cs u v e He. destruct (paths_spec cs) as (P1 & P2). apply P1 in He as (c & A & _ & B & _). apply P2. exists c. auto. Qed.

Lemma chain_app : forall cs a b c l m, chain cs a b l -> chain cs b c m -> chain cs a c (l ++ m).
Proof. induction 1; intros H'; simpl; auto. constructor; auto. Qed.
Lemma walk_chain : forall cs a b l, walk (converter_paths cs) a b l <-> chain cs a b l.
Proof.
  intros cs a b l. split.
  - induction 1 as [|u v e l W IH He]; [constructor|]. apply (proj1 (paths_spec cs)) in He as (c & A & <- & <- & <-).
    eapply chain_app; eauto. constructor; auto. constructor.
  - assert (Cons : forall u v e b l, edge (converter_paths cs) u v e -> walk (converter_paths cs) v b l -> walk (converter_paths cs) u b (e :: l)).
    { intros u v e b' l' He W. induction W as [|w x f l' W IH Hf].
      - apply (walk_snoc _ u u v e []); auto. constructor.
      - change (e :: l' ++ [f]) with ((e :: l') ++ [f]). eapply walk_snoc; eauto. }
    induction 1 as [|c b ids Hc H IH]; [constructor|]. eapply Cons; eauto. apply (proj1 (paths_spec cs)). exists c. auto.
Qed.

Lemma chain_known : forall cs a b l, chain cs a b l -> a = b \/ known cs a /\ known cs b.
Proof.
  induction 1 as [|c b ids Hc H IH]; auto. right. split; [exists c; auto|]. destruct IH as [<-|(_ & X)]; auto. exists c. auto.
Qed.
