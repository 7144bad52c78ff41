From Coq Require Import String List Bool Arith Lia.
From Verif Require Import Base ModelConfigs ModelReuse SpecReuse.
Import ListNotations.
Open Scope list_scope.
Open Scope nat_scope.

Lemma rnode_ind' : forall P : rnode -> Prop,
  P RConst -> (forall id, P (RLeaf id)) -> (forall id values, Forall P values -> P (RDict id values)) ->
  (forall ret children, Forall (fun x => P (snd x)) children -> P (RMerge ret children)) -> forall r, P r.
Proof.
  intros P H0 H1 H3 H2. fix IH 1. intros [|id|id values|ret children]; [apply H0|apply H1|apply H3|apply H2].
  - induction values as [|n l IHl]; constructor; [apply IH|exact IHl].
  - induction children as [|[p n] l IHl]; constructor; [apply IH|exact IHl].
Qed.

Lemma set_nth_length : forall A i (x : A) l, length (set_nth i x l) = length l.
Proof.
  intros A i x l. unfold set_nth. rewrite app_length, firstn_length.
  destruct (skipn i l) as [|y t] eqn:E; apply (f_equal (@length A)) in E; rewrite skipn_length in E; simpl in *; lia.
Qed.
Lemma set_nth_other : forall A i j (x z : A) l, i <> j -> nth j (set_nth i x l) z = nth j l z.
Proof.
  intros A i j x z. revert i j. unfold set_nth. intros i j l N. revert i j N.
  induction l as [|y l IH]; intros [|i] [|j] N; simpl; try lia; auto.
Qed.
Lemma set_nth_same : forall A i (x z : A) l, i < length l -> nth i (set_nth i x l) z = x.
Proof.
  intros A i x z l. unfold set_nth. revert i.
  induction l as [|y l IH]; intros [|i] L; simpl in *; auto; try lia. apply IH. lia.
Qed.

Section Proofs.
  Variable configs : list cfg.
  Variable meta : nat -> list (string * kmeta).
  Variable check : nat -> conf -> list (string * kmeta) -> option exn.
  Notation open_leaf := (open_leaf configs meta check).
  Notation open_node := (open_node configs meta check).
  Notation open_recipe := (open_recipe configs meta check).
  Notation merge_keys_of := (merge_keys_of configs meta check).
  Notation reopen := (reopen configs meta check).

  Fixpoint occ (p : option string) (r : rnode) : list (option string * nat) :=
    match r with
    | RConst => []
    | RLeaf id => [(p, id)]
    | RDict id values => flat_map (occ p) values ++ [(p, id)]
    | RMerge _ children => flat_map (fun x => match x with (q, n) => occ q n end) children
    end.

  Fixpoint open_list (d : nat) (l : list (option string * nat)) (st : rstate) : rstate * option exn :=
    match l with
    | [] => (st, None)
    | (p, id) :: l' => seq_open (open_leaf d p st id) (open_list d l')
    end.

  Lemma open_list_app : forall d l l' st, open_list d (l ++ l') st = seq_open (open_list d l st) (open_list d l').
  Proof.
    induction l as [|[p id] l IH]; intros l' st; simpl; auto.
    destruct (open_leaf d p st id) as [s [e|]]; simpl; auto.
  Qed.

  Lemma open_node_list : forall r d p st, open_node d p r st = open_list d (occ p r) st.
  Proof.
    induction r as [|id|id values IH|ret children IH] using rnode_ind'; intros d p st; simpl; auto.
    - destruct (open_leaf d p st id) as [s [e|]]; auto.
    - rewrite open_list_app.
      match goal with |- seq_open ?a _ = seq_open ?b _ => assert (a = b) as E end.
      { revert st. induction IH as [|n l H F IHl]; intros st; simpl; auto.
        rewrite open_list_app, <- (H d p st). destruct (open_node d p n st) as [s [e|]]; simpl; auto. }
      rewrite E. destruct (open_list d (flat_map (occ p) values) st) as [s [e|]]; simpl; auto.
      destruct (open_leaf d p s id) as [s' [e|]]; auto.
    - revert st. induction IH as [|[q n] l H F IHl]; intros st; simpl; auto.
      simpl in H. rewrite open_list_app, <- (H d q st). destruct (open_node d q n st) as [s [e|]]; simpl; auto.
  Qed.

  Lemma occ_within : forall r p q id, In (q, id) (occ p r) -> within p r q id.
  Proof.
    induction r as [|i|i values IH|ret children IH] using rnode_ind'; simpl; intros p q id H.
    - destruct H.
    - destruct H as [H|[]]. inversion H; subst. constructor.
    - rewrite Forall_forall in IH. apply in_app_or in H as [H|[H|[]]].
      + apply in_flat_map in H as (n & I & H). eapply in_value; eauto.
      + inversion H; subst. constructor.
    - rewrite Forall_forall in IH. apply in_flat_map in H as ([p' n] & I & H). eapply in_input; eauto. apply (IH _ I). auto.
  Qed.
  Lemma occ_occurs : forall r p id, In (p, id) (occ None r) -> occurs r p id.
  Proof. intros r p id. apply occ_within. Qed.

  (** *** what an open changes *)
  Lemma dget_dset_other : forall (l : list (nat * conf)) i j c, i <> j -> dget Nat.eqb j (dset Nat.eqb i c l) = dget Nat.eqb j l.
  Proof. intros l i j c N. rewrite (dget_dset Nat.eqb Nat.eqb_spec). destruct (Nat.eqb_spec j i); congruence. Qed.
  Lemma dget_dset_same : forall (l : list (nat * conf)) i c, dget Nat.eqb i (dset Nat.eqb i c l) = Some c.
  Proof. intros l i c. rewrite (dget_dset Nat.eqb Nat.eqb_spec), Nat.eqb_refl. auto. Qed.

  (** [st'] is [st] with some undecided nodes decided; dicts before [d] are as they were *)
  Definition grows (d : nat) (st st' : rstate) : Prop :=
    length (rs_dicts st) <= length (rs_dicts st') /\
    (forall i, i < d -> nth i (rs_dicts st') [] = nth i (rs_dicts st) []) /\
    (forall id, decided st id -> dget Nat.eqb id (rs_conf st') = dget Nat.eqb id (rs_conf st)) /\
    (forall id e, dget Nat.eqb id (rs_conf st') = Some (Struct e) -> dget Nat.eqb id (rs_conf st) = Some (Struct e) \/ (d <= e < length (rs_dicts st'))).

  Lemma grows_refl : forall d st, grows d st st.
  Proof. intros d st. repeat split; auto. Qed.
  Lemma grows_trans : forall d a b c, grows d a b -> grows d b c -> grows d a c.
  Proof.
    intros d a b c (A1 & A2 & A3 & A4) (B1 & B2 & B3 & B4). split; [lia|]. split; [intros; rewrite B2, A2; auto|]. split.
    - intros id D. rewrite <- A3 by auto. apply B3. unfold decided in *. rewrite A3; auto.
    - intros id e E. destruct (B4 _ _ E) as [X|X]; auto. destruct (A4 _ _ X) as [Y|Y]; auto. right. lia.
  Qed.
  Lemma grows_less : forall d d' a b, d' <= d -> grows d a b -> grows d' a b.
  Proof.
    intros d d' a b L (A1 & A2 & A3 & A4). split; auto. split; [intros; apply A2; lia|]. split; auto.
    intros id e E. destruct (A4 _ _ E); auto. right. lia.
  Qed.

  (** a decided node is only checked; an undecided one is decided, or the error is reported *)
  Lemma open_leaf_decided : forall d p st id c, dget Nat.eqb id (rs_conf st) = Some c -> c <> Infer ->
    open_leaf d p st id = (assign st id c, check id c (dict_of st c)).
  Proof.
    intros d p st id c H N. unfold ModelReuse.open_leaf. rewrite H. destruct c; try congruence; reflexivity.
  Qed.

  Lemma assign_grows : forall d st id c, (forall c', dget Nat.eqb id (rs_conf st) = Some c' -> c' = c \/ c' = Infer) ->
    (forall e, c = Struct e -> dget Nat.eqb id (rs_conf st) = Some (Struct e) \/ d <= e < length (rs_dicts st)) -> grows d st (assign st id c).
  Proof.
    intros d st id c H S. split; [auto|]. split; [auto|]. unfold assign; simpl. split.
    - intros j D. destruct (Nat.eq_dec id j) as [<-|N]; [|apply dget_dset_other; auto].
      rewrite dget_dset_same. destruct D as [(i & D)|(e & D)]; rewrite D; destruct (H _ D) as [E|E]; congruence.
    - intros j e E. destruct (Nat.eq_dec id j) as [<-|N]; [|rewrite dget_dset_other in E; auto].
      rewrite dget_dset_same in E. inversion E; auto.
  Qed.

  Lemma open_leaf_grows : forall d p st id, d < length (rs_dicts st) ->
    grows d st (fst (open_leaf d p st id)) /\ (snd (open_leaf d p st id) = None -> decided (fst (open_leaf d p st id)) id).
  Proof.
    intros d p st id L. unfold ModelReuse.open_leaf.
    assert (forall infer, (forall c', dget Nat.eqb id (rs_conf st) = Some c' -> c' = Infer) ->
      let r := match determine configs (map fst (meta id)) p infer with
      | Err e => (st, Some e)
      | Ok (Some i) => let st' := assign st id (Known i) in (st', check id (Known i) (dict_of st' (Known i)))
      | Ok None =>
        let '(s, e) := join (nth d (rs_dicts st) []) (meta id) in
        let st' := RS (rs_conf st) (set_nth d s (rs_dicts st)) in
        match e with Some e => (st', Some e) | None => let st'' := assign st' id (Struct d) in (st'', check id (Struct d) (dict_of st'' (Struct d))) end
      end in grows d st (fst r) /\ (snd r = None -> decided (fst r) id)) as U.
    { intros infer N. destruct (determine _ _ _ _) as [[i|]|e]; cbn zeta.
      - split; [apply assign_grows; [intros c' H; right; auto|discriminate]|].
        intros _. left. exists i. apply dget_dset_same.
      - destruct (join _ _) as [s [e|]].
        + split; [|discriminate]. cbn [fst]. split; [cbn; rewrite set_nth_length; auto|]. split; [|split; auto].
          intros i I. cbn. apply set_nth_other. lia.
        + split.
          * eapply grows_trans; [|apply assign_grows].
            -- split; [cbn; rewrite set_nth_length; auto|]. split; [|split; auto].
               intros i I. cbn. apply set_nth_other. lia.
            -- intros c' H. right. auto.
            -- intros e E. inversion E; subst. cbn. rewrite set_nth_length. auto.
          * intros _. right. exists d. apply dget_dset_same.
      - split; [apply grows_refl|discriminate]. }
    destruct (dget Nat.eqb id (rs_conf st)) as [c|] eqn:E.
    - destruct c as [|i|e].
      + apply U. intros c' H. congruence.
      + split; [apply assign_grows; [intros; left; congruence|discriminate]|]. intros _. left. exists i. apply dget_dset_same.
      + split; [apply assign_grows; [intros; left; congruence|intros x X; inversion X; subst; auto]|]. intros _. right. exists e. apply dget_dset_same.
    - apply U. intros c' H. congruence.
  Qed.

  Lemma decided_grows : forall d a b id, grows d a b -> decided a id -> decided b id.
  Proof. intros d a b id (_ & _ & G & _) D. unfold decided. rewrite (G id D). auto. Qed.

  Lemma open_list_grows : forall d l st, d < length (rs_dicts st) ->
    grows d st (fst (open_list d l st)) /\
    (snd (open_list d l st) = None -> forall p id, In (p, id) l -> decided (fst (open_list d l st)) id).
  Proof.
    induction l as [|[p id] l IH]; intros st L; simpl.
    - split; [apply grows_refl|]. intros _ p id [].
    - destruct (open_leaf_grows d p st id L) as (G & D).
      destruct (open_leaf d p st id) as [s [e|]]; simpl in *; [split; auto; discriminate|].
      destruct (IH s) as (G' & D').
      { destruct G as (G1 & _). lia. }
      split; [eapply grows_trans; eauto|]. intros N q j [H|H]; [|eapply D'; eauto].
      inversion H; subst. eapply decided_grows; eauto.
  Qed.

  Lemma open_recipe_list : forall st r, open_recipe st r = open_list (length (rs_dicts st)) (occ None r) (RS (rs_conf st) (rs_dicts st ++ [[]])).
  Proof. intros. unfold ModelReuse.open_recipe. apply open_node_list. Qed.

  Lemma open_recipe_grows : forall st r, grows (length (rs_dicts st)) st (fst (open_recipe st r)) /\
    (snd (open_recipe st r) = None -> forall p id, In (p, id) (occ None r) -> decided (fst (open_recipe st r)) id).
  Proof.
    intros st r. rewrite open_recipe_list. destruct (open_list_grows (length (rs_dicts st)) (occ None r) (RS (rs_conf st) (rs_dicts st ++ [[]]))) as (G & D).
    { cbn. rewrite app_length. simpl. lia. }
    split; auto. eapply grows_trans; [|exact G]. split; [cbn; rewrite app_length; lia|]. split; [|split; auto].
    intros i I. cbn. rewrite app_nth1; auto.
  Qed.

  Lemma merge_state : forall st r, fst (merge_keys_of st r) = fst (open_recipe st r).
  Proof. intros. unfold ModelReuse.merge_keys_of. destruct (open_recipe st r); auto. Qed.

  Lemma reopen_grows : forall h st, grows (length (rs_dicts st)) st (reopen st h).
  Proof.
    induction h as [|r h IH]; intros st; simpl; [apply grows_refl|].
    rewrite merge_state. destruct (open_recipe_grows st r) as (G & _).
    eapply grows_trans; [exact G|]. eapply grows_less; [|apply IH]. apply G.
  Qed.

  (** *** the config of a recipe depends on its nodes' *)
  Lemma config_of_same : forall r st st' p, (forall q id, In (q, id) (occ p r) -> dget Nat.eqb id (rs_conf st') = dget Nat.eqb id (rs_conf st)) ->
    config_of st' r = config_of st r.
  Proof.
    induction r as [|id|id values _|ret children IH] using rnode_ind'; intros st st' p H; simpl; auto.
    - f_equal. apply (H p). simpl; auto.
    - f_equal. apply (H p). simpl. apply in_or_app. simpl; auto.
    - generalize (match ret with Some i => Some (Known i) | None => None end). simpl in H.
      induction IH as [|[q n] l Hn F IHl]; intros default; simpl; auto.
      simpl in Hn. rewrite (Hn st st' q).
      2:{ intros q' id I. apply (H q'). simpl. apply in_or_app; auto. }
      destruct (config_of st n) as [[c|]|]; simpl; auto.
      + destruct (match q with Some i => Some (Known i) | None => default end); auto.
        * destruct (String.eqb _ _); auto. apply IHl. intros q' id I. apply (H q'). simpl. apply in_or_app; auto.
        * apply IHl. intros q' id I. apply (H q'). simpl. apply in_or_app; auto.
      + apply IHl. intros q' id I. apply (H q'). simpl. apply in_or_app; auto.
  Qed.

  Lemma config_of_in : forall r st p c, config_of st r = Ok (Some c) -> (exists q id, In (q, id) (occ p r) /\ dget Nat.eqb id (rs_conf st) = Some c) \/ exists i, c = Known i.
  Proof.
    induction r as [|id|id values _|ret children IH] using rnode_ind'; intros st p c H; simpl in H.
    - discriminate.
    - inversion H. left. exists p, id. simpl; auto.
    - inversion H. left. exists p, id. split; auto. simpl. apply in_or_app. simpl; auto.
    - assert (forall default, (exists i, default = Some (Known i)) \/ default = None \/
         (exists c q id, default = Some c /\ In (q, id) (occ p (RMerge ret children)) /\ dget Nat.eqb id (rs_conf st) = Some c) -> forall l,
         (forall x, In x l -> In x children) ->
         (fix each l (default : option conf) := match l with
        | [] => Ok default
        | (p, n) :: l' =>
          let* c := config_of st n in
          match c with
          | None => each l' default
          | Some c =>
            match (match p with Some i => Some (Known i) | None => default end) with
            | Some e => if String.eqb (ident e) (ident c) then each l' default else Err ValueError
            | None => each l' (Some c)
            end
          end
        end) l default = Ok (Some c) -> (exists q id, In (q, id) (occ p (RMerge ret children)) /\ dget Nat.eqb id (rs_conf st) = Some c) \/ exists i, c = Known i) as K.
      { intros default D l. revert default D. induction l as [|[q n] l IHl]; intros default D Sub E.
        - inversion E; subst. destruct D as [(i & D)|[D|(c' & q & id & D & D1 & D2)]]; inversion D; subst; eauto 6.
        - assert (In (q, n) children) as I by (apply Sub; left; auto).
          apply bind_Ok in E as (o & O & E).
          assert (forall x, In x l -> In x children) as Sub' by (intros; apply Sub; right; auto).
          destruct o as [c'|]; [|eapply IHl; eauto].
          destruct (match q with Some i => Some (Known i) | None => default end) as [e|] eqn:Q.
          + destruct (String.eqb _ _); [|discriminate]. eapply IHl; eauto.
          + eapply (IHl (Some c')); eauto. rewrite Forall_forall in IH. destruct (IH _ I st q c' O) as [(q' & id & X & Y)|(i & ->)]; eauto.
            right; right. exists c', q', id. split; auto. split; auto. simpl. apply in_flat_map. exists (q, n). auto. }
      eapply K; [| |exact H]; auto. destruct ret; eauto.
  Qed.
End Proofs.
