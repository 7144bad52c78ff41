(** C101: tasks that share their input files compute what they would compute alone from plain dictionaries. *)
From Coq Require Import String Ascii List Bool Arith NArith Lia Permutation.
From Verif Require Import Base Dec Json PyStr ModelStream SpecStream InProofs InProofs2 OutProofs OutProofs2 OutProofs3 PropsStreamLemmas PropsStream ModelShared SpecShared.
Import ListNotations.
Open Scope string_scope.
Open Scope list_scope.
Open Scope nat_scope.

(** every tensor of the header is in the file, in full *)
Definition whole (cap : nat) (r : ins) : Prop :=
  (forall k v, dget String.eqb k (in_header r) = Some v -> k <> "__metadata__" ->
    exists d sh a b, complete (in_file r) (in_hsize r) v d sh a b) /\
  entries_fit cap (in_header r) /\ in_bufsize r <= cap.
Definition dict_of (r : ins) : string -> result tensor := as_dict (in_file r) (in_hsize r) (in_header r).

(** a view that is in the heap *)
Definition valid (r : ins) (v : view) : Prop := match v with VEmpty _ _ => True | VBuf _ _ b _ _ => b < length (in_heap r) end.

Lemma whole_same : forall cap r r', whole cap r -> same_file r r' -> whole cap r'.
Proof. intros cap r r' (H1 & H2 & H3) (E1 & E2 & E3 & E4 & _). unfold whole. now rewrite E1, E2, E3, E4. Qed.
Lemma dict_same : forall r r', same_file r r' -> dict_of r' = dict_of r.
Proof. intros r r' (E1 & E2 & E3 & E4 & _). unfold dict_of. now rewrite E1, E3, E4. Qed.

Lemma get_dict : forall cap r k, window_ok r -> whole cap r ->
  let '(x, r') := in_get cap r k in
  window_ok r' /\ same_file r r' /\
  match x with
  | Ok v => valid r' v /\ dict_of r k = Ok (view_tensor (in_heap r') v)
  | Err e => dict_of r k = Err e
  end.
Proof.
  intros cap r k W (H & F & B).
  pose proof (in_get_keeps cap r k W B F) as (W' & S').
  pose proof (in_get_view_valid cap r k) as VV. pose proof (in_get_spec cap r k) as SP.
  destruct (in_get cap r k) as [x r'] eqn:E. simpl in *. split; [assumption|]. split; [assumption|].
  destruct (dget String.eqb k (in_header r)) as [v|] eqn:G.
  - destruct (String.eqb_spec k "__metadata__") as [->|NK].
    + unfold in_get in E. rewrite G in E. simpl in E. injection E as <- <-. unfold dict_of, as_dict. rewrite G. reflexivity.
    + destruct (H k v G NK) as (d & sh & a & b & I & AB & L).
      destruct (SP v d sh a b W B F eq_refl NK I AB L) as (w & -> & T).
      split; [now apply VV|]. unfold dict_of, as_dict. rewrite G. destruct (String.eqb_spec k "__metadata__"); [contradiction|].
      rewrite I. simpl bind. rewrite T. unfold part, slice. reflexivity.
  - unfold in_get in E. rewrite G in E. injection E as <- <-. unfold dict_of, as_dict. now rewrite G.
Qed.

(** ** Lists with one place changed *)
Lemma replace_nth_ok : forall A (P : A -> A -> Prop) n (x : A) l, (forall y, P y y) ->
  (forall y, nth_error l n = Some y -> P y x) -> Forall2 P l (replace_nth n x l).
Proof.
  intros A P n x. unfold replace_nth. induction n; intros [|y l] R H; simpl; auto.
  - constructor; [now apply H|]. clear H. induction l; constructor; auto.
Qed.
Lemma replace_nth_same : forall A n (x y : A) l, nth_error l n = Some y -> nth_error (replace_nth n x l) n = Some x.
Proof. intros A n x y. unfold replace_nth. induction n; intros [|z l] H; simpl in *; try discriminate; auto. Qed.
Lemma replace_nth_other : forall A n m (x : A) l, n <> m -> nth_error (replace_nth n x l) m = nth_error l m.
Proof.
  intros A n m x. unfold replace_nth. revert m. induction n; intros m [|z l] H; simpl; auto.
  - destruct m; [contradiction|reflexivity].
  - destruct m; simpl; auto.
Qed.
Lemma Forall2_nth : forall A B (P : A -> B -> Prop) l l' n x, Forall2 P l l' -> nth_error l n = Some x ->
  exists y, nth_error l' n = Some y /\ P x y.
Proof.
  intros A B P l l' n x F. revert n. induction F; intros [|n] E; simpl in *; try discriminate; eauto.
  injection E as <-. eauto.
Qed.
Lemma Forall2_nth_none : forall A B (P : A -> B -> Prop) l l' n, Forall2 P l l' -> nth_error l n = None <-> nth_error l' n = None.
Proof. intros A B P l l' n F. revert n. induction F; intros [|n]; simpl; try tauto; try (split; discriminate). apply IHF. Qed.
Lemma Forall2_weaken : forall A B (P Q : A -> B -> Prop) l l', (forall x y, P x y -> Q x y) -> Forall2 P l l' -> Forall2 Q l l'.
Proof. intros A B P Q l l' H F. induction F; constructor; auto. Qed.
Lemma Forall2_compose : forall A (P Q : A -> A -> Prop) l l' l'', (forall x y z, P x y -> Q y z -> P x z) ->
  Forall2 P l l' -> Forall2 Q l' l'' -> Forall2 P l l''.
Proof.
  intros A P Q l l' l'' T F. revert l''. induction F; intros l'' G; inversion G; subst; constructor; eauto.
Qed.

Section Main.
Variable V : Type.
Variable cap : nat.
Variable rs : list ins.
Hypothesis opened : Forall (fun r => window_ok r /\ whole cap r) rs.
Let dicts := map dict_of rs.

Definition later (r0 r : ins) : Prop := same_file r0 r /\ (window_ok r0 -> window_ok r).
Lemma later_refl : forall r, later r r.
Proof. intros r. split; [apply same_file_refl|auto]. Qed.
Lemma later_trans : forall a b c, later a b -> later b c -> later a c.
Proof. intros a b c (S1 & W1) (S2 & W2). split; [eapply same_file_trans; eassumption|auto]. Qed.

(** what a worker was given, as tensors *)
Definition holds (fs : list ins) (x : nat * view) (t : tensor) : Prop :=
  exists r, nth_error fs (fst x) = Some r /\ valid r (snd x) /\ view_tensor (in_heap r) (snd x) = t.
Lemma holds_later : forall fs fs' x t, Forall2 later fs fs' -> holds fs x t -> holds fs' x t.
Proof.
  intros fs fs' x t F (r & E & U & T). destruct (Forall2_nth _ _ _ _ _ _ _ F E) as (r' & E' & S & _).
  exists r'. split; [assumption|]. destruct S as (_ & _ & _ & _ & more & HH). split.
  - destruct (snd x); simpl in *; auto. rewrite HH, app_length. lia.
  - rewrite <- T. destruct (snd x) as [d sh|d sh b o n]; [reflexivity|]. simpl in U.
    unfold view_tensor, view_bytes. rewrite HH, app_nth1 by assumption. reflexivity.
Qed.

(** how many steps a task needs *)
Fixpoint steps (files : list (string -> result tensor)) (given : list tensor) (p : task V) : nat :=
  match p with
  | Done _ => 0
  | Ask i k next =>
    S match nth_error files i with
      | None => steps files given (next (Some IndexError))
      | Some dict => match dict k with Ok t => steps files (given ++ [t]) (next None) | Err e => steps files given (next (Some e)) end
      end
  | Look n next => S (steps files given (next (nth_error given n)))
  end.

Definition good_worker (fs : list ins) (p : task V) (left : nat) (w : worker V) : Prop :=
  exists ts, Forall2 (holds fs) (w_given w) ts /\ alone dicts ts (w_task w) = alone dicts [] p /\
    steps dicts ts (w_task w) <= left.

Lemma good_later : forall fs fs' p n w, Forall2 later fs fs' -> good_worker fs p n w -> good_worker fs' p n w.
Proof.
  intros fs fs' p n w F (ts & G & A). exists ts. split; [|exact A].
  eapply Forall2_weaken; [|exact G]. intros x t. now apply holds_later.
Qed.

Lemma files_now : forall fs i, Forall2 later rs fs ->
  match nth_error fs i with
  | None => nth_error dicts i = None
  | Some r => nth_error dicts i = Some (dict_of r) /\ window_ok r /\ whole cap r
  end.
Proof.
  intros fs i F. destruct (nth_error fs i) as [r|] eqn:E.
  - destruct (nth_error rs i) as [r0|] eqn:E0.
    2:{ apply (Forall2_nth_none _ _ _ _ _ i F) in E0. congruence. }
    destruct (Forall2_nth _ _ _ _ _ _ _ F E0) as (r' & E' & S & W). rewrite E in E'. injection E' as <-.
    rewrite Forall_forall in opened. destruct (opened r0 (nth_error_In _ _ E0)) as (W0 & H0).
    unfold dicts. rewrite nth_error_map, E0. simpl. split; [f_equal; symmetry; now apply dict_same|].
    split; [auto|]. eapply whole_same; eassumption.
  - apply (Forall2_nth_none _ _ _ _ _ i F) in E. unfold dicts. now rewrite nth_error_map, E.
Qed.

Lemma step_good : forall t g, Forall2 later rs (files_of g) ->
  Forall2 later (files_of g) (files_of (wstep cap t g)) /\
  (forall t' w, t' <> t -> nth_error (workers_of g) t' = Some w -> nth_error (workers_of (wstep cap t g)) t' = Some w) /\
  (forall w p n, nth_error (workers_of g) t = Some w -> good_worker (files_of g) p n w ->
     exists w', nth_error (workers_of (wstep cap t g)) t = Some w' /\ good_worker (files_of (wstep cap t g)) p (n - 1) w').
Proof.
  intros t g F. unfold wstep. destruct (nth_error (workers_of g) t) as [w|] eqn:EW.
  2:{ split; [clear; induction (files_of g); constructor; auto using later_refl|]. split; [auto|]. discriminate. }
  destruct w as [p0 given]. destruct p0 as [x|i k next|n next]; cbn [w_task w_given].
  - split; [clear; induction (files_of g); constructor; auto using later_refl|]. split; [auto|].
    intros w p n E (ts & H & A & ST). injection E as <-. eexists. split; [exact EW|]. exists ts. simpl in *. auto with arith.
  - pose proof (files_now _ i F) as N. destruct (nth_error (files_of g) i) as [r|] eqn:EF.
    + destruct N as (D & W & H). pose proof (get_dict cap r k W H) as GD.
      destruct (in_get cap r k) as [x r'] eqn:EG. destruct GD as (W' & S' & GD).
      assert (FL : Forall2 later (files_of g) (replace_nth i r' (files_of g))).
      { apply replace_nth_ok; [apply later_refl|]. intros y EY. rewrite EF in EY. injection EY as <-. split; auto. }
      cbn [files_of workers_of]. split; [exact FL|]. split.
      * intros t' w NE E. now rewrite replace_nth_other by auto.
      * intros w p n E (ts & G & A & ST). injection E as <-. eexists. split; [eapply replace_nth_same; exact EW|].
        cbn [w_task w_given] in *. simpl in A, ST. rewrite D in A, ST.
        assert (G' : Forall2 (holds (replace_nth i r' (files_of g))) given ts).
        { eapply Forall2_weaken; [|exact G]. intros a b. now apply holds_later. }
        destruct x as [v|e].
        -- destruct GD as (U & T). rewrite T in A, ST. exists (ts ++ [view_tensor (in_heap r') v]). cbn [w_task w_given].
           split; [|split; [exact A|lia]]. apply Forall2_app; [exact G'|]. constructor; [|constructor].
           exists r'. simpl. split; [eapply replace_nth_same; exact EF|]. auto.
        -- rewrite GD in A, ST. exists ts. cbn [w_task w_given]. split; [exact G'|]. split; [exact A|lia].
    + cbn [files_of workers_of]. split; [clear; induction (files_of g); constructor; auto using later_refl|]. split.
      * intros t' w NE E. now rewrite replace_nth_other by auto.
      * intros w p n E (ts & G & A & ST). injection E as <-. eexists. split; [eapply replace_nth_same; exact EW|].
        exists ts. cbn [w_task w_given] in *. simpl in A, ST. rewrite N in A, ST. split; [exact G|]. split; [exact A|lia].
  - cbn [files_of workers_of]. split; [clear; induction (files_of g); constructor; auto using later_refl|]. split.
    + intros t' w NE E. now rewrite replace_nth_other by auto.
    + intros w p m E (ts & G & A & ST). injection E as <-. eexists. split; [eapply replace_nth_same; exact EW|].
      exists ts. cbn [w_task w_given] in *. simpl in A, ST.
      assert (SEEN : match nth_error given n with
                    | None => None
                    | Some (i, v) => match nth_error (files_of g) i with
                                     | None => None
                                     | Some r => Some (view_tensor (in_heap r) v)
                                     end
                    end = nth_error ts n).
      { destruct (nth_error given n) as [[i v]|] eqn:EN.
        - destruct (Forall2_nth _ _ _ _ _ _ _ G EN) as (t0 & -> & r & ER & _ & T). simpl in ER, T. now rewrite ER, T.
        - apply (Forall2_nth_none _ _ _ _ _ n G) in EN. now rewrite EN. }
      rewrite SEEN. split; [exact G|]. split; [exact A|lia].
Qed.

Lemma run_good : forall sched g t p n w, Forall2 later rs (files_of g) ->
  nth_error (workers_of g) t = Some w -> good_worker (files_of g) p n w ->
  exists w', nth_error (workers_of (wrun cap sched g)) t = Some w' /\
    good_worker (files_of (wrun cap sched g)) p (n - count_occ Nat.eq_dec sched t) w'.
Proof.
  induction sched as [|u sched IH]; intros g t p n w F E G; simpl.
  - exists w. now rewrite Nat.sub_0_r.
  - destruct (step_good u g F) as (FL & OT & SM).
    assert (F' : Forall2 later rs (files_of (wstep cap u g))).
    { eapply Forall2_compose; [apply later_trans|exact F|exact FL]. }
    destruct (Nat.eq_dec u t) as [->|NE].
    + destruct (SM w p n E G) as (w' & E' & G'). destruct (IH _ _ _ _ _ F' E' G') as (w2 & E2 & G2).
      exists w2. split; [exact E2|]. now replace (n - S (count_occ Nat.eq_dec sched t)) with (n - 1 - count_occ Nat.eq_dec sched t) by lia.
    + apply (IH _ _ p n w F'); [apply OT; auto|]. eapply good_later; [exact FL|exact G].
Qed.

Lemma shared : forall ps t p, nth_error ps t = Some p -> forall sched, exists w,
  nth_error (workers_of (wrun cap sched (start rs ps))) t = Some w /\
  (forall x, w_task w = Done x -> x = alone dicts [] p) /\
  (steps dicts [] p <= count_occ Nat.eq_dec sched t -> w_task w = Done (alone dicts [] p)).
Proof.
  intros ps t p E sched.
  destruct (run_good sched (start rs ps) t p (steps dicts [] p) (Worker p [])) as (w & E' & ts & G & A & ST).
  - simpl. clear. induction rs; constructor; auto using later_refl.
  - simpl. now rewrite nth_error_map, E.
  - exists []. simpl. auto.
  - exists w. split; [exact E'|]. split.
    + intros x Ex. now rewrite Ex in A.
    + intros L. replace (steps dicts [] p - count_occ Nat.eq_dec sched t) with 0 in ST by lia.
      destruct (w_task w) as [x|i k next|n next]; simpl in ST; try lia. simpl in A. now rewrite A.
Qed.
End Main.

(** Tasks that share any number of input files, opened with any buffer sizes, and take turns in any order: every task
    ends with what it computes on its own from the files as plain dictionaries, and it ends after a number of its own
    turns that does not depend on the others. *)
Theorem C101_shared_files : forall V cap rs (ps : list (task V)),
  (forall r, In r rs -> exists f n, in_open cap f n = Ok r /\ n <= cap /\ entries_fit cap (in_header r) /\
     forall k v, dget String.eqb k (in_header r) = Some v -> k <> "__metadata__" ->
       exists d sh a b, complete f (in_hsize r) v d sh a b) ->
  let dicts := map (fun r => as_dict (in_file r) (in_hsize r) (in_header r)) rs in
  forall t p, nth_error ps t = Some p -> exists enough, forall sched, exists w,
    nth_error (workers_of (wrun cap sched (start rs ps))) t = Some w /\
    (forall x, w_task w = Done x -> x = alone dicts [] p) /\
    (enough <= count_occ Nat.eq_dec sched t -> w_task w = Done (alone dicts [] p)).
Proof.
  intros V cap rs ps H dicts t p E. exists (steps V dicts [] p). apply shared; [|exact E].
  rewrite Forall_forall. intros r I. destruct (H r I) as (f & n & O & N & F & C).
  destruct (in_open_window _ _ _ _ O) as (W & IF & IB). split; [exact W|]. unfold whole. rewrite IF, IB. auto.
Qed.
Print Assumptions C101_shared_files.

(** The files this program writes are of that kind, whatever was written and however, and as dictionaries they hold
    the tensors written. *)
Theorem C101_written_files : forall cap declared recipe minbuf ops s bufsize,
  orun cap (out_open declared recipe minbuf) ops = Some s -> quiescent s ->
  good_calls (written ops) -> transfers_fit cap declared recipe minbuf (written ops) ->
  0 < minbuf -> bufsize <= cap ->
  exists f r, out_close cap s = Ok f /\ in_open cap f bufsize = Ok r /\ entries_fit cap (in_header r) /\
    (forall k v, dget String.eqb k (in_header r) = Some v -> k <> "__metadata__" ->
       exists d sh a b, complete f (in_hsize r) v d sh a b) /\
    (forall k t, In (k, t) (written ops) -> as_dict f (in_hsize r) (in_header r) k = Ok t) /\
    (forall k, ~ In k (map fst (written ops)) -> as_dict f (in_hsize r) (in_header r) k = Err (StateDictKeyError k)).
Proof.
  intros cap declared recipe minbuf ops s bufsize R Q G T M B.
  destruct (C05_written_file_reads_back _ _ _ _ _ _ bufsize R Q G T M B) as (f & r & C & O & K & META & RD).
  destruct (C06_tensors_tile_the_data_section _ _ _ _ _ _ bufsize R Q G T M) as (f' & r' & st & en & C' & O' & E & _ & _).
  rewrite C in C'. injection C' as <-. rewrite O in O'. injection O' as <-.
  destruct (in_open_window _ _ _ _ O) as (W & IF & IB).
  assert (KEY : forall k v, dget String.eqb k (in_header r) = Some v -> k <> "__metadata__" -> exists t, In (k, t) (written ops)).
  { intros k v D NK. assert (I : In k (in_keys r)).
    { apply (C15_keys_of_an_input_file _ _ _ _ O). split; [assumption|]. apply (dget_In String.eqb String.eqb_spec) in D. apply in_map_iff. now exists (k, v). }
    apply (Permutation_in _ K) in I. apply in_map_iff in I as ([k' t] & EQ & I). simpl in EQ. subst k'. eauto. }
  assert (CO : forall k t, In (k, t) (written ops) -> exists v, dget String.eqb k (in_header r) = Some v /\
     complete f (in_hsize r) v (t_dtype t) (t_shape t) (N.of_nat (st k)) (N.of_nat (en k))).
  { intros k t I. destruct (E k t I) as (D & L & LE). eexists. split; [exact D|]. split; [apply entry_info_entry|].
    destruct G as [_ WF]. rewrite Forall_forall in WF. specialize (WF _ I). unfold wf_tensor in WF. simpl in WF. split; lia. }
  assert (NM : forall k t, In (k, t) (written ops) -> k <> "__metadata__").
  { intros k t I ->. destruct G as [ND _]. inversion ND as [|? ? NI _]. apply NI. apply in_map_iff. now exists ("__metadata__", t). }
  assert (WH : forall k v, dget String.eqb k (in_header r) = Some v -> k <> "__metadata__" ->
       exists d sh a b, complete f (in_hsize r) v d sh a b).
  { intros k v D NK. destruct (KEY k v D NK) as (t & I). destruct (CO k t I) as (v' & D' & X). rewrite D in D'. injection D' as <-. eauto. }
  assert (ND : NoDup (map fst (in_header r))).
  { unfold in_open in O. apply bind_Ok in O as ([hs h] & RH & O). injection O as <-. simpl. unfold read_header in RH.
    apply bind_Ok in RH as (n & _ & RH). apply bind_Ok in RH as (txt & _ & RH). apply bind_Ok in RH as (j & JL & RH).
    destruct j; try discriminate. apply bind_Ok in RH as (h' & SH & RH). injection RH as <- <-.
    apply json_loads_NoDup in JL. destruct (sort_header_spec _ _ SH) as (P & _).
    eapply Permutation_NoDup; [apply Permutation_map; exact P|exact JL]. }
  assert (FT : entries_fit cap (in_header r)).
  { intros k v d sh a b I EI. apply (dget_NoDup_In String.eqb String.eqb_spec) in I; [|exact ND].
    destruct (String.eqb_spec k "__metadata__") as [->|NK].
    - rewrite META in I. injection I as <-. destruct recipe; discriminate.
    - destruct (KEY k v I NK) as (t & IN). destruct (CO k t IN) as (v' & D' & EI' & SZ & _). rewrite I in D'. injection D' as <-.
      rewrite EI in EI'. injection EI' as -> -> -> ->. destruct T as (_ & _ & _ & TS & _). specialize (TS k t IN).
      destruct (E k t IN) as (_ & L & _). lia. }
  exists f, r. do 4 (split; [assumption|]). split.
  - intros k t I. destruct (RD [] k t I) as (w & GW & VW). simpl in GW, VW.
    pose proof (get_dict cap r k W) as GD. destruct (in_get cap r k) as [x r'] eqn:EG. simpl in GW, VW. subst x.
    destruct GD as (_ & _ & _ & GD); [unfold whole; rewrite IF, IB; auto|]. unfold dict_of in GD. rewrite IF, VW in GD. exact GD.
  - intros k NI. unfold as_dict. destruct (dget String.eqb k (in_header r)) as [v|] eqn:D; [|reflexivity].
    destruct (String.eqb_spec k "__metadata__") as [->|NK]; [reflexivity|]. destruct (KEY k v D NK) as (t & I).
    destruct NI. apply in_map_iff. now exists (k, t).
Qed.
Print Assumptions C101_written_files.

(** ** Two tasks and one file with a buffer of five bytes: each reads two keys and only then looks at both *)
Definition both (k k' : string) : task (list tensor) :=
  Ask 0 k (fun _ => Ask 0 k' (fun _ => Look 0 (fun x => Look 1 (fun y =>
    Done (match x, y with Some x, Some y => Ok [x; y] | _, _ => Err KeyError end))))).
Example C101_case : exists r, in_open 4096 ex_file 5 = Ok r /\
  workers_of (wrun 4096 [0; 1; 1; 0; 1; 0; 0; 1] (start [r] [both "a" "b"; both "b" "c"])) =
    [Worker (Done (Ok [tA; tB])) [(0, VBuf U8 [3%N] 1 0 3); (0, VBuf F16 [2%N; 2%N] 4 0 8)];
     Worker (Done (Ok [tB; tC])) [(0, VBuf F16 [2%N; 2%N] 2 0 8); (0, VBuf U8 [2%N] 3 0 2)]].
Proof. eexists. split; [vm_compute; reflexivity|]. vm_compute. reflexivity. Qed.
