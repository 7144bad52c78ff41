(** C112: the text of a recipe is no longer than its graph.
    Read with ModelSerial.v (model). *)
From Coq Require Import String Ascii List Bool Arith NArith ZArith Lia.
From Verif Require Import Base Dec Json PyStr ModelRecipe ModelSerial SpecRecipe SerialProofs1 SerialProofs2 SerialProofs3 PropsSerial.
Import ListNotations.
Open Scope string_scope.
Open Scope list_scope.
Open Scope nat_scope.

(** ** Vocabulary *)

(** [v] is used in [r], or is [r] *)
Inductive used : pyobj -> pyobj -> Prop :=
| us_self : forall v, used v v
| us_dict : forall v k x l, In (k, x) l -> used v x -> used v (VDict l)
| us_lit : forall v x c s, used v x -> used v (VLit x c s)
| us_arg : forall v m x args kw, In x args -> used v x -> used v (VMerge m args kw)
| us_kwarg : forall v m k x args kw, In (k, x) kw -> used v x -> used v (VMerge m args kw).

(** objects that take a line: dicts, models, merges, and literals with a config *)
Definition has_line (v : pyobj) : Prop :=
  match v with VDict _ | VModel _ _ _ | VMerge _ _ _ | VLit _ (Some _) _ => True | _ => False end.

(** ** Proofs *)

Lemma index_app : forall x l k i, index_of x l = Some i -> index_of x (l ++ k) = Some i.
Proof.
  induction l as [|y l IH]; intros k i H; cbn [index_of app] in *; [discriminate|].
  destruct (list_eq_dec ascii_dec x y); auto. destruct (index_of x l) as [j|]; [|discriminate]. rewrite (IH k j); auto.
Qed.
Lemma index_last : forall x l k, index_of x l = None -> index_of x ((l ++ [x]) ++ k) = Some (length l).
Proof.
  induction l as [|y l IH]; intros k H; cbn [index_of app length] in *.
  - destruct (list_eq_dec ascii_dec x x); congruence.
  - destruct (list_eq_dec ascii_dec x y); [discriminate|]. destruct (index_of x l); [discriminate|]. rewrite IH; auto.
Qed.

Lemma add_grows : forall line I, exists J, snd (add_instr line I) = I ++ J.
Proof. intros. unfold add_instr. destruct (index_of line I); cbn; eauto. exists []. rewrite app_nil_r; auto. Qed.
Lemma add_settled : forall line I t K, add_instr line I = (t, I) -> add_instr line (I ++ K) = (t, I ++ K).
Proof.
  unfold add_instr. intros line I t K H. destruct (index_of line I) as [i|] eqn:E.
  - inversion H; subst. rewrite (index_app _ _ _ _ E). auto.
  - inversion H as [[A B]]. apply (f_equal (@length chars)) in B. rewrite app_length in B. simpl in B. lia.
Qed.
Lemma add_settles : forall line I t I', add_instr line I = (t, I') -> add_instr line I' = (t, I').
Proof.
  unfold add_instr. intros line I t I' H. destruct (index_of line I) as [i|] eqn:E.
  - inversion H; subst. rewrite E. auto.
  - inversion H; subst. replace (I ++ [line]) with ((I ++ [line]) ++ []) at 1 by apply app_nil_r. rewrite (index_last _ _ _ E). auto.
Qed.

Definition grows (v : pyobj) := forall I t I', ser v I = Ok (t, I') -> exists J, I' = I ++ J.
Definition settled (v : pyobj) := forall I t K, ser v I = Ok (t, I) -> ser v (I ++ K) = Ok (t, I ++ K).
Definition settles (v : pyobj) := forall I t I', ser v I = Ok (t, I') -> ser v I' = Ok (t, I').

Lemma app_same : forall A (l a b : list A), l = (l ++ a) ++ b -> a = [] /\ b = [].
Proof.
  intros A l a b H. rewrite <- app_assoc in H. rewrite <- (app_nil_r l) in H at 1. apply app_inv_head in H.
  destruct a; destruct b; try discriminate; auto.
Qed.

Lemma grows_list : forall l, Forall grows l -> forall I ts I', ser_list ser l I = Ok (ts, I') -> exists J, I' = I ++ J.
Proof.
  induction 1 as [|v l G _ IH]; intros I ts I' H; cbn [ser_list] in H.
  - inversion H; subst. exists []. rewrite app_nil_r; auto.
  - apply bind_Ok in H as ((t & I1) & H1 & H). apply bind_Ok in H as ((ts' & I2) & H2 & H). inversion H; subst. cbn [fst snd] in *.
    destruct (G _ _ _ H1) as (J & ->). destruct (IH _ _ _ H2) as (J' & ->). exists (J ++ J'). rewrite app_assoc; auto.
Qed.
Lemma settled_list : forall l, Forall grows l -> Forall settled l ->
  forall I ts K, ser_list ser l I = Ok (ts, I) -> ser_list ser l (I ++ K) = Ok (ts, I ++ K).
Proof.
  induction l as [|v l IH]; intros G S I ts K H; cbn [ser_list] in *.
  - inversion H; subst; auto.
  - apply bind_Ok in H as ((t & I1) & H1 & H). apply bind_Ok in H as ((ts' & I2) & H2 & H). inversion H; subst. cbn [fst snd] in *.
    destruct (Forall_inv G _ _ _ H1) as (J & E1). destruct (grows_list l (Forall_inv_tail G) _ _ _ H2) as (J' & E2).
    subst I1. pose proof E2 as E3. apply app_same in E3 as (-> & ->). rewrite !app_nil_r in *.
    rewrite (Forall_inv S _ _ K H1). cbn [bind fst snd]. rewrite (IH (Forall_inv_tail G) (Forall_inv_tail S) _ _ K H2). auto.
Qed.
Lemma settles_list : forall l, Forall grows l -> Forall settled l -> Forall settles l ->
  forall I ts I', ser_list ser l I = Ok (ts, I') -> ser_list ser l I' = Ok (ts, I').
Proof.
  induction l as [|v l IH]; intros G S Z I ts I' H; cbn [ser_list] in *.
  - inversion H; subst; auto.
  - apply bind_Ok in H as ((t & I1) & H1 & H). apply bind_Ok in H as ((ts' & I2) & H2 & H). inversion H; subst. cbn [fst snd] in *.
    destruct (grows_list l (Forall_inv_tail G) _ _ _ H2) as (J' & ->).
    rewrite (Forall_inv S _ _ J' (Forall_inv Z _ _ _ H1)). cbn [bind fst snd].
    rewrite (IH (Forall_inv_tail G) (Forall_inv_tail S) (Forall_inv_tail Z) _ _ _ H2). auto.
Qed.

Lemma Forall_snd : forall (P : pyobj -> Prop) (l : list (string * pyobj)), Forall (fun kv => P (snd kv)) l -> Forall P (map snd l).
Proof. induction 1; simpl; constructor; auto. Qed.


Lemma ser_grows : forall v, grows v.
Proof.
  assert (A : forall line I t I', Ok (add_instr line I) = Ok (t, I') -> exists J, I' = I ++ J).
  { intros line I t I' H. injection H; intros H'. destruct (add_grows line I) as (J & E). rewrite H' in E. eauto. }
  assert (N : forall I : list chars, exists J, I = I ++ J) by (intros; exists []; rewrite app_nil_r; auto).
  induction v using pyobj_rect'; intros I t I' X; cbn [ser] in X; try discriminate;
    try (injection X; intros <- _; apply N).
  - rewrite ser_kws_list in X. apply bind_Ok in X as ((r & I1) & X1 & X). apply bind_Ok in X1 as ((r' & I2) & X2 & X1).
    inversion X1; subst. cbn [fst snd] in *. apply A in X as (J & ->).
    destruct (grows_list _ (Forall_snd _ _ H) _ _ _ X2) as (J' & ->). rewrite <- app_assoc. eauto.
  - destruct c as [c|]; [|eauto]. apply bind_Ok in X as ((r & I1) & X1 & X). cbn [fst snd] in *. apply A in X as (J & ->).
    destruct (IHv _ _ _ X1) as (J' & ->). rewrite <- app_assoc. eauto.
  - eapply A; eauto.
  - apply bind_Ok in X as ((r & I1) & X1 & X). rewrite ser_kws_list in X. apply bind_Ok in X as ((r' & I2) & X2 & X).
    apply bind_Ok in X2 as ((r2 & I3) & X3 & X2). inversion X2; subst. cbn [fst snd] in *. apply A in X as (J & ->).
    destruct (grows_list _ H _ _ _ X1) as (J1 & ->). destruct (grows_list _ (Forall_snd _ _ H0) _ _ _ X3) as (J3 & ->).
    rewrite <- !app_assoc. eauto.
Qed.
Lemma all_grow : forall l, Forall grows l.
Proof. intros. apply Forall_forall. intros; apply ser_grows. Qed.

(** what a line needs: its parts, then the line itself *)
Definition parts_then (parts : list pyobj) (line : list chars -> chars) (v : pyobj) : Prop :=
  forall I, ser v I = (let* r := ser_list ser parts I in Ok (add_instr (line (fst r)) (snd r))).

Lemma ser_list1 : forall v I, ser_list ser [v] I = let* r := ser v I in Ok ([fst r], snd r).
Proof. intros. cbn [ser_list]. destruct (ser v I); auto. Qed.
Lemma ser_list_app : forall l k I, ser_list ser (l ++ k) I = let* r := ser_list ser l I in let* s := ser_list ser k (snd r) in Ok (fst r ++ fst s, snd s).
Proof.
  induction l as [|v l IH]; intros k I; cbn [ser_list app].
  - cbn. destruct (ser_list ser k I) as [[? ?]|]; auto.
  - destruct (ser v I) as [r|]; cbn [bind]; auto. rewrite IH. destruct (ser_list ser l (snd r)) as [r'|]; cbn [bind fst snd]; auto.
    destruct (ser_list ser k (snd r')); cbn; auto.
Qed.
Lemma ser_list_length : forall l I r, ser_list ser l I = Ok r -> length (fst r) = length l.
Proof.
  induction l as [|v l IH]; intros I r H; cbn [ser_list] in H; [inversion H; auto|].
  apply bind_Ok in H as (a & _ & H). apply bind_Ok in H as (b & B & H). inversion H; subst. simpl. erewrite IH; eauto.
Qed.

(** the objects below [v] that are serialized before it *)
Definition parts (v : pyobj) : list pyobj :=
  match v with
  | VDict l => map snd l
  | VLit x _ _ => [x]
  | VMerge _ args kw => args ++ map snd kw
  | _ => []
  end.
Lemma has_line_parts : forall v, has_line v -> exists line, parts_then (parts v) line v.
Proof.
  intros v H. destruct v as [| | | | | | |l|x c s|p c s|m args kw]; try contradiction.
  - exists (fun ts => s2l "dict " ++ join sp1 (map (fun kt : string * chars => s2l (fst kt) ++ "="%char :: snd kt) (combine (map fst l) ts))).
    intros I. cbn [ser parts]. rewrite ser_kws_list. destruct (ser_list ser (map snd l) I) as [r|]; auto.
  - destruct c as [c|]; [|contradiction].
    exists (fun ts => s2l "literal " ++ hd [] ts ++ s2l " model_config=" ++ quoted c ++ s2l " merge_space=" ++ quoted s).
    intros I. cbn [ser parts]. rewrite ser_list1. destruct (ser x I) as [r|]; auto.
  - exists (fun _ => s2l "model " ++ quoted p ++ s2l " model_config=" ++ match c with Some c => quoted c | None => s2l "null" end ++ s2l " merge_space=" ++ quoted s).
    intros I. reflexivity.
  - exists (fun ts => join sp1 (s2l "merge" :: quoted m :: firstn (length args) ts ++
      map (fun kt : string * chars => s2l (fst kt) ++ "="%char :: snd kt) (combine (map fst kw) (skipn (length args) ts)))).
    intros I. cbn [ser parts]. rewrite ser_list_app. destruct (ser_list ser args I) as [r|] eqn:E; auto. cbn [bind]. rewrite ser_kws_list.
    destruct (ser_list ser (map snd kw) (snd r)) as [r'|]; auto. cbn [bind fst snd].
    rewrite <- (ser_list_length _ _ _ E), firstn_app, skipn_app, Nat.sub_diag, firstn_all, skipn_all. cbn. rewrite app_nil_r. auto.
Qed.

Lemma parts_induction : forall P : pyobj -> Prop,
  (forall v, has_line v -> Forall P (parts v) -> P v) -> (forall x s, P x -> P (VLit x None s)) ->
  (forall v, ~ has_line v -> parts v = [] -> P v) -> forall v, P v.
Proof.
  intros P A B C. induction v using pyobj_rect'; try (apply C; [solve [intros []]|reflexivity]).
  - apply A; [exact I|]. apply Forall_snd; auto.
  - destruct c; [|auto]. apply A; [exact I|]. constructor; auto.
  - apply A; [exact I|]. constructor.
  - apply A; [exact I|]. apply Forall_app; split; auto. apply Forall_snd; auto.
Qed.
Lemma plain_ser : forall v, ~ has_line v -> parts v = [] -> forall I I' r, ser v I = Ok r -> snd r = I /\ ser v I' = Ok (fst r, I').
Proof. intros v H E I I' r X. destruct v as [| | | | | | | | | | ]; cbn in *; try tauto; try discriminate; inversion X; subst; auto. Qed.

Lemma ser_settled : forall v, settled v.
Proof.
  apply parts_induction.
  - intros v HL F I t K H. destruct (has_line_parts v HL) as (line & PT). rewrite PT in *.
    apply bind_Ok in H as ((ts & I1) & H1 & H). cbn [fst snd] in *. injection H; intros H'.
    destruct (grows_list _ (all_grow _) _ _ _ H1) as (J & ->). destruct (add_grows (line ts) (I ++ J)) as (J' & E). rewrite H' in E. cbn [snd] in E.
    apply app_same in E as (-> & ->). rewrite app_nil_r in *.
    rewrite (settled_list _ (all_grow _) F _ _ K H1). cbn [bind fst snd]. rewrite (add_settled _ _ _ K H'). auto.
  - intros x s IH I t K H. cbn [ser] in *. apply IH; auto.
  - intros v N E I t K H. apply (plain_ser v N E I (I ++ K)) in H as (_ & H). auto.
Qed.
Lemma all_settled : forall l, Forall settled l.
Proof. intros. apply Forall_forall. intros; apply ser_settled. Qed.

Lemma ser_settles : forall v, settles v.
Proof.
  apply parts_induction.
  - intros v HL F I t I' H. destruct (has_line_parts v HL) as (line & PT). rewrite PT in *.
    apply bind_Ok in H as ((ts & I1) & H1 & H). cbn [fst snd] in *. injection H; intros H'.
    destruct (add_grows (line ts) I1) as (J & E). rewrite H' in E. cbn [snd] in E. subst I'.
    pose proof (settles_list _ (all_grow _) (all_settled _) F _ _ _ H1) as S. rewrite (settled_list _ (all_grow _) (all_settled _) _ _ J S). cbn [bind fst snd].
    rewrite (add_settles _ _ _ _ H'). auto.
  - intros x s IH I t I' H. cbn [ser] in *. eapply IH; eauto.
  - intros v N E I t I' H. apply (plain_ser v N E I I') in H as (_ & H). auto.
Qed.

(** one distinct object for each line so far, each of which has been serialized *)
Definition accounted (I : list chars) (objs : list pyobj) : Prop :=
  NoDup objs /\ length objs = length I /\ Forall (fun o => exists t, ser o I = Ok (t, I)) objs.

Lemma accounted_line : forall v line I objs t I', has_line v -> parts_then (parts v) line v -> accounted I objs ->
  forall ts, ser_list ser (parts v) I = Ok (ts, I) -> add_instr (line ts) I = (t, I') ->
  exists objs', accounted I' objs' /\ forall o, In o objs' -> In o objs \/ o = v.
Proof.
  intros v line I objs t I' HL PT (ND & L & F) ts P H.
  assert (S : ser v I' = Ok (t, I')).
  { destruct (add_grows (line ts) I) as (J & E). rewrite H in E. cbn [snd] in E. subst I'.
    rewrite PT, (settled_list _ (all_grow _) (all_settled _) _ _ J P). cbn [bind fst snd]. rewrite (add_settles _ _ _ _ H). auto. }
  unfold add_instr in H. destruct (index_of (line ts) I) as [i|] eqn:E; inversion H; subst; clear H.
  - exists objs. split; [repeat split; auto|auto].
  - exists (v :: objs). split; [|simpl; intuition]. repeat split.
    + constructor; auto. intros N. rewrite Forall_forall in F. destruct (F _ N) as (t & X). rewrite PT, P in X. cbn [bind fst snd] in X.
      unfold add_instr in X. rewrite E in X. inversion X as [[A B]]. apply (f_equal (@length chars)) in B. rewrite app_length in B. simpl in B. lia.
    + simpl. rewrite app_length, L. simpl. lia.
    + constructor; [eauto|]. eapply Forall_impl; [|exact F]. intros o (t & X). exists t. apply ser_settled; auto.
Qed.

Lemma used_parts : forall o v x, In x (parts v) -> used o x -> used o v.
Proof.
  intros o v x I U. destruct v as [| | | | | | |l|y c s| |m args kw]; cbn in I; try contradiction.
  - apply in_map_iff in I as ((k & y) & <- & I). eapply us_dict; eauto.
  - destruct I as [<-|[]]. apply us_lit; auto.
  - apply in_app_iff in I as [I|I]; [eapply us_arg; eauto|]. apply in_map_iff in I as ((k & y) & <- & I). eapply us_kwarg; eauto.
Qed.

Definition counted (v : pyobj) := forall I objs t I', accounted I objs -> ser v I = Ok (t, I') ->
  exists objs', accounted I' objs' /\ forall o, In o objs' -> In o objs \/ (used o v /\ has_line o).

Lemma counted_list : forall l, Forall counted l -> forall I objs ts I', accounted I objs -> ser_list ser l I = Ok (ts, I') ->
  exists objs', accounted I' objs' /\ forall o, In o objs' -> In o objs \/ exists x, In x l /\ used o x /\ has_line o.
Proof.
  induction l as [|v l IH]; intros F I objs ts I' A H; cbn [ser_list] in H.
  - inversion H; subst. exists objs. auto.
  - apply bind_Ok in H as ((t & I1) & H1 & H). apply bind_Ok in H as ((ts' & I2) & H2 & H). inversion H; subst. cbn [fst snd] in *.
    destruct (Forall_inv F _ _ _ _ A H1) as (o1 & A1 & U1). destruct (IH (Forall_inv_tail F) _ _ _ _ A1 H2) as (o2 & A2 & U2).
    exists o2. split; auto. intros o Ho. destruct (U2 o Ho) as [X|(x & Ix & X)].
    + destruct (U1 o X) as [Y|Y]; auto. right. exists v. simpl; auto.
    + right. exists x. simpl; auto.
Qed.

Lemma ser_counted : forall v, counted v.
Proof.
  apply parts_induction.
  - intros v HL F I objs t I' A H. destruct (has_line_parts v HL) as (line & PT). rewrite PT in H.
    apply bind_Ok in H as ((ts & I1) & H1 & H). cbn [fst snd] in *. injection H; intros H'.
    destruct (counted_list _ F _ _ _ _ A H1) as (o1 & A1 & U1).
    assert (S : ser_list ser (parts v) I1 = Ok (ts, I1)).
    { apply (settles_list _ (all_grow _) (all_settled _)) with (2 := H1). apply Forall_forall. intros; apply ser_settles. }
    destruct (accounted_line v line I1 o1 t I' HL PT A1 ts S H') as (o2 & A2 & U2).
    exists o2. split; auto. intros o Ho. destruct (U2 o Ho) as [X| ->].
    + destruct (U1 o X) as [Y|(x & Ix & Y & Z)]; auto. right. split; auto. eapply used_parts; eauto.
    + right. split; [constructor|auto].
  - intros x s IH I objs t I' A H. cbn [ser] in H. destruct (IH _ _ _ _ A H) as (o1 & A1 & U1).
    exists o1. split; auto. intros o Ho. destruct (U1 o Ho) as [X|(X & Y)]; auto. right. split; auto. constructor; auto.
  - intros v N E I objs t I' A H. apply (plain_ser v N E I I) in H as (X & _). cbn in X. subst I'. exists objs. auto.
Qed.

(** ** C112 *)

(** The text of a recipe has a header and at most one line for each distinct object used in it: [L] lists them, in any order. *)
Theorem C112_text_size : forall r text L, serialize r = Ok text ->
  (forall v, used v r -> has_line v -> In v L) ->
  exists lines, text = join [c_nl] (s2l "version 0.1.0" :: lines) /\ length lines <= length L.
Proof.
  intros r text L H HL. unfold serialize in H. apply bind_Ok in H as ((t & I) & H1 & H). inversion H; subst. cbn [snd].
  exists I. split; [reflexivity|]. destruct (ser_counted r [] [] t I) as (objs & (ND & Len & _) & U); auto.
  { repeat split; constructor. }
  rewrite <- Len. apply NoDup_incl_length; auto. intros o Ho. destruct (U o Ho) as [[]|(X & Y)]; auto.
Qed.

(** ** ... and no fewer *)

Lemma parts_settled : forall l I ts, ser_list ser l I = Ok (ts, I) -> Forall (fun v => exists t, ser v I = Ok (t, I)) l.
Proof.
  induction l as [|v l IH]; intros I ts H; cbn [ser_list] in H; constructor.
  - apply bind_Ok in H as ((t & I1) & H1 & H). apply bind_Ok in H as ((ts' & I2) & H2 & H). inversion H; subst. cbn [fst snd] in *.
    destruct (ser_grows _ _ _ _ H1) as (J & ->). destruct (grows_list _ (all_grow _) _ _ _ H2) as (J' & E). apply app_same in E as (-> & ->).
    rewrite app_nil_r in H1. eauto.
  - apply bind_Ok in H as ((t & I1) & H1 & H). apply bind_Ok in H as ((ts' & I2) & H2 & H). inversion H; subst. cbn [fst snd] in *.
    destruct (ser_grows _ _ _ _ H1) as (J & ->). destruct (grows_list _ (all_grow _) _ _ _ H2) as (J' & E). pose proof E as E'. apply app_same in E as (-> & ->).
    rewrite app_nil_r in H2. eauto.
Qed.
Lemma line_settled : forall v I t, has_line v -> ser v I = Ok (t, I) -> Forall (fun x => exists t, ser x I = Ok (t, I)) (parts v).
Proof.
  intros v I t HL H. destruct (has_line_parts v HL) as (line & PT). rewrite PT in H. apply bind_Ok in H as ((ts & I1) & H1 & H). cbn [fst snd] in *.
  injection H; intros H'. destruct (grows_list _ (all_grow _) _ _ _ H1) as (J & ->). destruct (add_grows (line ts) (I ++ J)) as (J' & E).
  rewrite H' in E. cbn [snd] in E. apply app_same in E as (-> & ->). rewrite app_nil_r in H1. eapply parts_settled; eauto.
Qed.
Lemma used_settled : forall v r, used v r -> forall I t, ser r I = Ok (t, I) -> exists t', ser v I = Ok (t', I).
Proof.
  induction 1 as [v|v k x l Ix U IH|v x c s U IH|v m x args kw Ix U IH|v m k x args kw Ix U IH]; intros I t H; eauto.
  - apply line_settled in H; [|exact Logic.I]. rewrite Forall_forall in H. destruct (H x) as (t' & X); [apply in_map_iff; exists (k, x); auto|eauto].
  - destruct c as [c|]; [|eapply IH; exact H]. apply line_settled in H; [|exact Logic.I]. apply Forall_inv in H as (t' & X). eauto.
  - apply line_settled in H; [|exact Logic.I]. rewrite Forall_forall in H. destruct (H x) as (t' & X); [apply in_app_iff; auto|eauto].
  - apply line_settled in H; [|exact Logic.I]. rewrite Forall_forall in H.
    destruct (H x) as (t' & X); [apply in_app_iff; right; apply in_map_iff; exists (k, x); auto|eauto].
Qed.
Lemma used_every : forall P v r, used v r -> every P r -> every P v.
Proof.
  intros P. induction 1 as [v|v k x l Ix U IH|v x c s U IH|v m x args kw Ix U IH|v m k x args kw Ix U IH]; intros E; auto; apply IH; apply proj2 in E.
  - exact (proj1 (all_kin_In (every P) l) E k x Ix).
  - exact E.
  - exact (proj1 (all_in_In (every P) args) (proj1 E) x Ix).
  - exact (proj1 (all_kin_In (every P) kw) (proj2 E) k x Ix).
Qed.

(** For the recipes of C01, each distinct object takes one line. *)
Theorem C112_one_line_each : forall E, (forall m g, resolve_method E m = Ok g -> sig_ok g) ->
  forall r, is_node r = true -> every (made E) r -> every spelled r -> bare r = false ->
  exists text lines, serialize r = Ok text /\ split_on c_nl text = s2l "version 0.1.0" :: lines /\
    forall L, NoDup L -> (forall v, In v L <-> used v r /\ has_line v) -> length lines = length L.
Proof.
  intros E SG r Hn Hm Hs Hb. destruct (ser_good E SG r Hs Hm [] []) as (t & I & R & w & S1 & (Hr & Hl & Hnl) & _).
  { split; [reflexivity|]. split; auto. }
  exists (join [c_nl] (version_header :: I)), I. assert (Es : serialize r = Ok (join [c_nl] (version_header :: I))).
  { unfold serialize. rewrite S1. reflexivity. }
  split; auto. split.
  { apply split_join; [discriminate|]. intros p [<-|Hp]; [simpl; intuition discriminate|]. rewrite Forall_forall in Hnl. apply Hnl; auto. }
  intros L ND HL. apply Nat.le_antisymm.
  - destruct (ser_counted r [] [] t I) as (objs & (ND' & Len & _) & U); auto.
    { repeat split; constructor. }
    rewrite <- Len. apply NoDup_incl_length; auto. intros o Ho. apply HL. destruct (U o Ho) as [[]|]; auto.
  - rewrite <- Hl. apply NoDup_incl_length; auto. intros v Hv. apply HL in Hv as (U & C).
    destruct (used_settled v r U I t (ser_settles _ _ _ _ S1)) as (t' & S2).
    destruct (ser_good E SG v (used_every _ _ _ U Hs) (used_every _ _ _ U Hm) I R) as (t2 & I' & R' & w' & S3 & (_ & Hl' & _) & _ & R'' & _ & Y & Z).
    { split; [exact Hr|]. split; auto. }
    rewrite S2 in S3. inversion S3; subst. rewrite app_length in Hl'. simpl in Hl, Hl'. assert (R' = []) as -> by (destruct R'; simpl in *; [auto|lia]).
    assert (R'' = []) as -> by (destruct Y as [Y|Y]; [auto|destruct R''; discriminate]).
    destruct Z as [Z|Z].
    + destruct v as [| | | | | | | |? [|]| |]; auto; contradiction.
    + discriminate.
    + rewrite app_nil_r in Z. exact Z.
Qed.

(** [tower n]: a recipe of [n + 1] objects, each merge using the one below twice *)
Fixpoint tower (n : nat) : pyobj :=
  match n with
  | 0 => VModel "m.safetensors" None "weight"
  | S n' => VMerge "weighted_sum" [tower n'; tower n'] []
  end.

Lemma tower_used : forall n v, used v (tower n) -> exists i, i <= n /\ v = tower i.
Proof.
  induction n as [|n IH]; intros v U; cbn in U.
  - inversion U; subst. exists 0. auto.
  - inversion U as [|? ? ? ? I|? ? ? ? U'|? ? x ? ? I U'|? ? ? ? ? ? I]; subst.
    + exists (S n). auto.
    + assert (x = tower n) as -> by (destruct I as [<-|[<-|[]]]; auto). destruct (IH _ U') as (i & L & ->). exists i. auto.
    + destruct I.
Qed.
Lemma tower_ser : forall n I, exists r, ser (tower n) I = Ok r.
Proof.
  induction n as [|n IH]; intros I; [eexists; reflexivity|]. cbn [tower ser ser_list].
  destruct (IH I) as (r & ->). cbn [bind]. destruct (IH (snd r)) as (r' & ->). cbn. eauto.
Qed.

(** The merges in it, counted once for each use, double with every level; the lines do not. *)
Theorem C112_shared : forall n, exists text lines, serialize (tower n) = Ok text /\
  text = join [c_nl] (s2l "version 0.1.0" :: lines) /\ length lines <= n + 1 /\ size (tower n) = 2 ^ (n + 1) - 1.
Proof.
  intros n. destruct (tower_ser n []) as (r & E). assert (serialize (tower n) = Ok (join [c_nl] (version_header :: snd r))) as S.
  { unfold serialize. rewrite E. reflexivity. }
  destruct (C112_text_size _ _ (map tower (seq 0 (n + 1))) S) as (lines & T & L).
  { intros v U _. apply tower_used in U as (i & L & ->). apply in_map_iff. exists i. split; auto. apply in_seq. lia. }
  rewrite map_length, seq_length in L. exists (join [c_nl] (version_header :: snd r)), lines. repeat split; auto.
  clear. induction n as [|n IH]; [reflexivity|]. cbn [tower size map list_sum fold_right]. unfold list_sum. cbn [map fold_right]. rewrite IH.
  cbn [Nat.add Nat.pow]. pose proof (Nat.pow_nonzero 2 (n + 1)). lia.
Qed.

Example C112_case :
  let text := s2l "version 0.1.0
model ""m.safetensors"" model_config=null merge_space=""weight""
merge ""weighted_sum"" &0 &0
merge ""weighted_sum"" &1 &1" in
  serialize (tower 2) = Ok text /\ size (tower 2) = 7 /\
  (forall v, used v (tower 2) -> has_line v -> In v [tower 0; tower 1; tower 2]).
Proof.
  cbn zeta. split; [vm_compute; reflexivity|]. split; [reflexivity|].
  intros v U _. apply tower_used in U as (i & L & ->). destruct i as [|[|[|i]]]; [| | |lia]; cbn; auto.
Qed.

(** a recipe with sharing: four objects, of which two are used twice and more *)
Example C112_each_case :
  let L := [r1; mdl "dir/a ""x"".st"; VMerge "average" [mdl "b"; mdl "b"; mdl "dir/a ""x"".st"] []; mdl "b"] in
  is_node r1 = true /\ every (made E0) r1 /\ every spelled r1 /\ bare r1 = false /\
  NoDup L /\ (forall v, In v L <-> used v r1 /\ has_line v) /\
  exists text, serialize r1 = Ok text /\ length (split_on c_nl text) = 5.
Proof.
  cbn zeta. split; [reflexivity|]. split; [exact r1_made|]. split; [exact r1_spelled|]. split; [reflexivity|]. split.
  { repeat constructor; cbn; intuition discriminate. }
  split; [|eexists; split; [vm_compute; reflexivity|vm_compute; reflexivity]].
  assert (U : forall v, used v r1 -> v = r1 \/ v = mdl "dir/a ""x"".st" \/ v = VMerge "average" [mdl "b"; mdl "b"; mdl "dir/a ""x"".st"] [] \/
    v = mdl "b" \/ v = VLit (VInt (-7)) None "param" \/ v = VInt (-7)).
  { assert (M : forall p v, used v (mdl p) -> v = mdl p) by (intros p v X; inversion X; auto).
    intros v X. unfold r1 in X. inversion X as [|? ? ? ? I|? ? ? ? Y|? ? x ? ? I Y|? ? ? x ? ? I Y]; subst; auto.
    - destruct I as [<-|[<-|[]]]; [apply M in Y; auto|].
      inversion Y as [|? ? ? ? J|? ? ? ? Z|? ? x ? ? J Z|? ? ? x ? ? J Z]; subst; auto; [|destruct J].
      destruct J as [<-|[<-|[<-|[]]]]; apply M in Z; auto.
    - destruct I as [I|[]]. inversion I; subst. inversion Y as [|? ? ? ? J|? ? ? ? Z| |]; subst; auto 10.
      inversion Z; subst; auto 10. }
  intros v. split.
  - intros [<-|[<-|[<-|[<-|[]]]]]; (split; [|exact I]).
    + constructor.
    + eapply us_arg; [left; reflexivity|constructor].
    + eapply us_arg; [right; left; reflexivity|constructor].
    + eapply us_arg; [right; left; reflexivity|]. eapply us_arg; [left; reflexivity|constructor].
  - intros (X & C). apply U in X as [-> |[-> |[-> |[-> |[-> | ->]]]]]; cbn; auto; destruct C.
Qed.

Print Assumptions C112_text_size.
Print Assumptions C112_one_line_each.
Print Assumptions C112_shared.
