(** Proofs about ModelPaths.v. *)
From Coq Require Import String Ascii List Bool Arith Lia.
From Verif Require Import Base ModelPaths SpecPaths.
Import ListNotations.
Open Scope string_scope.
Open Scope list_scope.
Open Scope nat_scope.

Lemma follow_eq : forall fs m n here todo,
  follow fs m n here todo =
  match todo with
  | [] => Some here
  | c :: todo' =>
    if String.eqb c ".." then follow fs m n (removelast here) todo'
    else
      match fs (here ++ [c]) with
      | Some Dir => follow fs m n (here ++ [c]) todo'
      | Some (Link l) => match n with 0 => None | S k => follow fs m k (start l here) (parts l ++ todo') end
      | Some (File _) => match todo', m with
                         | [], _ => Some (here ++ [c])
                         | _, Lenient => follow fs m n (here ++ [c]) todo'
                         | _, _ => None
                         end
      | None => match m, todo' with
                | Existing, _ => None
                | Creating, [] => Some (here ++ [c])
                | Creating, _ => None
                | Lenient, _ => follow fs m n (here ++ [c]) todo'
                end
      end
  end.
Proof. intros fs m n here todo. destruct n, todo; reflexivity. Qed.

Lemma existing_leads : forall fs n here todo r, follow fs Existing n here todo = Some r <-> leads fs n here todo r.
Proof.
  intros fs n here todo r. split.
  - revert here todo r. induction n as [|n IHn]; intros here todo; revert here;
      (induction todo as [|c todo IH]; intros here r; rewrite follow_eq;
       [ intro E; injection E as <-; apply leads_here
       | destruct (String.eqb_spec c ".."); [subst; intro E; apply leads_up; auto | ];
         destruct (fs (here ++ [c])) as [[x| |l]|] eqn:F; intro E; try discriminate;
         match type of F with
         | _ = Some (File _) => destruct todo; [injection E as <-; eapply leads_file; eassumption | discriminate]
         | _ = Some Dir => eapply leads_dir; eauto
         | _ => eapply leads_link; eauto
         end ]).
  - induction 1 as [n here|n here todo r L IH|n here c todo r N F L IH|n here c x N F|n here c l todo r N F L IH];
      rewrite follow_eq; trivial; apply String.eqb_neq in N; rewrite N, F; trivial.
Qed.
Lemma existing_lenient : forall fs n here todo r, leads fs n here todo r -> follow fs Lenient n here todo = Some r.
Proof.
  induction 1 as [n here|n here todo r L IH|n here c todo r N F L IH|n here c x N F|n here c l todo r N F L IH];
    rewrite follow_eq; trivial; apply String.eqb_neq in N; rewrite N, F; trivial.
Qed.
Lemma leads_fun : forall fs n here todo r r', leads fs n here todo r -> leads fs n here todo r' -> r = r'.
Proof. intros fs n here todo r r' H H'. apply existing_leads in H, H'. congruence. Qed.
Lemma creating_iff : forall fs n here todo r,
  follow fs Creating n here todo = Some r <-> leads fs n here todo r \/ can_make fs n here todo r.
Proof.
  intros fs n here todo r. split.
  - revert here todo r. induction n as [|n IHn]; intros here todo; revert here;
      (induction todo as [|c todo IH]; intros here r; rewrite follow_eq;
       [ intro E; injection E as <-; left; apply leads_here
       | destruct (String.eqb_spec c "..");
         [subst; intro E; apply IH in E; destruct E; [left; apply leads_up | right; apply make_up]; trivial | ];
         destruct (fs (here ++ [c])) as [[x| |l]|] eqn:F; intro E; try discriminate;
         match type of F with
         | _ = Some (File _) => destruct todo; [injection E as <-; left; eapply leads_file; eassumption | discriminate]
         | _ = Some Dir => apply IH in E; destruct E; [left; eapply leads_dir | right; eapply make_dir]; eauto
         | _ = Some (Link _) => apply IHn in E; destruct E; [left; eapply leads_link | right; eapply make_link]; eauto
         | _ => destruct todo; [injection E as <-; right; apply make_here; assumption | discriminate]
         end ]).
  - intros [L|L]; induction L; rewrite follow_eq; trivial;
      match goal with N : _ <> ".." |- _ => apply String.eqb_neq in N; rewrite N end;
      match goal with F : fs _ = _ |- _ => rewrite F end; trivial.
Qed.
Lemma make_missing : forall fs n here todo r, can_make fs n here todo r -> fs r = None.
Proof. induction 1; trivial. Qed.

(** ** suffixes *)
Lemma rfind_app : forall c a b, rfind c (a ++ b) = match rfind c b with
  | Some i => Some (length a + i) | None => rfind c a end.
Proof.
  intros c a b. induction a as [|x a IH]; simpl.
  - destruct (rfind c b); reflexivity.
  - rewrite IH. destruct (rfind c b); reflexivity.
Qed.
Lemma rfind_skipn : forall c l i, rfind c l = Some i -> exists a b, l = a ++ c :: b /\ length a = i.
Proof.
  intros c l. induction l as [|x l IH]; intros i; simpl; [discriminate|].
  destruct (rfind c l) as [k|].
  - intro E. injection E as <-. destruct (IH k eq_refl) as (a & b & -> & <-). exists (x :: a), b. split; reflexivity.
  - destruct (Ascii.eqb_spec x c); intro E; [|discriminate]. injection E as <-. subst. exists [], l. split; reflexivity.
Qed.
Lemma s2l_app : forall a b, s2l (a ++ b)%string = s2l a ++ s2l b.
Proof. intros a b. induction a as [|c a IH]; [reflexivity|]. simpl. f_equal. exact IH. Qed.
Lemma suffix_iff : forall name, suffix_of name = ".safetensors" <-> exists a s, name = (String a s ++ ".safetensors")%string.
Proof.
  intro name. unfold suffix_of. split.
  - destruct (rfind "." (s2l name)) as [i|] eqn:F; [|discriminate].
    destruct (0 <? i) eqn:P; [|discriminate]. destruct (i <? _); [|discriminate]. simpl.
    intro E. apply rfind_skipn in F. destruct F as (a & b & L & I).
    apply Nat.ltb_lt in P. destruct a as [|x a]; [simpl in I; lia|].
    exists x, (l2s a). apply s2l_inj. change (s2l name = x :: s2l (l2s a ++ ".safetensors")%string). rewrite s2l_app.
    rewrite s2l_l2s, L, <- E, s2l_l2s. match goal with |- _ = _ :: _ ++ ?z => change ((x :: a) ++ "."%char :: b = (x :: a) ++ z) end. f_equal. rewrite <- I. rewrite L. symmetry. exact (skipn_app_exact (x :: a) ("."%char :: b)).
  - intros (a & s & ->). rewrite s2l_app, rfind_app.
    replace (rfind "." (s2l ".safetensors")) with (Some 0) by reflexivity.
    rewrite Nat.add_0_r, skipn_app_exact, app_length.
    assert (L : 0 < length (s2l (String a s))) by (simpl; lia).
    apply Nat.ltb_lt in L. rewrite L.
    assert (M : length (s2l (String a s)) < length (s2l (String a s)) + length (s2l ".safetensors") - 1) by (simpl; lia).
    apply Nat.ltb_lt in M. rewrite M. reflexivity.
Qed.
Lemma suffix_spec : forall p, String.eqb (suffix p) ".safetensors" = true <-> is_safetensors p.
Proof.
  intro p. rewrite String.eqb_eq. unfold suffix, is_safetensors. split.
  - intro E. destruct p as [|c p] using rev_ind; [discriminate|]. rewrite last_last in E.
    apply suffix_iff in E. destruct E as (a & s & ->). exists p, a, s. reflexivity.
  - intros (q & a & s & ->). rewrite last_last. apply suffix_iff. exists a, s. reflexivity.
Qed.

(** ** names *)
Lemma split_slash_app : forall a b cur, split_slash cur (a ++ "/"%char :: b) = split_slash cur a ++ split_slash [] b.
Proof.
  induction a as [|c a IH]; intros b cur; simpl; [reflexivity|]. destruct (Ascii.eqb c "/"); simpl; rewrite IH; reflexivity.
Qed.
Lemma split_slash_cur : forall l cur, ~ In "/"%char l -> split_slash cur l = [rev cur ++ l].
Proof.
  induction l as [|c l IH]; intros cur N; simpl; [rewrite app_nil_r; reflexivity|].
  destruct (Ascii.eqb_spec c "/"); [elim N; left; trivial|]. rewrite IH by (intro I; apply N; right; exact I).
  simpl. rewrite <- app_assoc. reflexivity.
Qed.
Lemma split_slash_none : forall l, ~ In "/"%char l -> split_slash [] l = [l].
Proof. intros l N. rewrite split_slash_cur by exact N. reflexivity. Qed.

(** ** where a model is *)
Lemma exists_iff : forall fs cwd n p, exists_ fs cwd n p = true <-> exists r, names fs n cwd p r.
Proof.
  intros fs cwd n p. unfold exists_, leads_to, names. change start with base. split.
  - destruct (follow _ _ _ _ _) as [r|] eqn:E; [|discriminate]. intros _. exists r. apply existing_leads, E.
  - intros [r H]. apply existing_leads in H. rewrite H. reflexivity.
Qed.
Lemma exists_false : forall fs cwd n p, exists_ fs cwd n p = false <-> nowhere fs n cwd p.
Proof.
  intros fs cwd n p. split.
  - intros E r H. assert (X : exists_ fs cwd n p = true) by (apply exists_iff; eauto). congruence.
  - intro H. destruct (exists_ fs cwd n p) eqn:E; trivial. apply exists_iff in E. destruct E as [r E]. elim (H r E).
Qed.
Lemma join_below : forall d p, absolute p = false -> join d p = below d p.
Proof. intros d p A. unfold join. rewrite A. reflexivity. Qed.
Lemma first_existing_found : forall fs cwd n p dirs before,
  absolute p = false -> (forall e, In e before -> nowhere fs n cwd (below e p)) ->
  found_at fs n cwd (before ++ dirs) p (first_existing fs cwd n dirs p).
Proof.
  intros fs cwd n p dirs. induction dirs as [|d dirs IH]; intros before A B; simpl.
  - rewrite app_nil_r. apply found_here; assumption.
  - rewrite join_below by assumption. destruct (exists_ fs cwd n (below d p)) eqn:E.
    + apply exists_iff in E. destruct E as [r E]. eapply found_dir; eauto.
    + apply exists_false in E. replace (before ++ d :: dirs) with ((before ++ [d]) ++ dirs) by (rewrite <- app_assoc; reflexivity).
      apply IH; trivial. intros e I. apply in_app_or in I. destruct I as [I|[<-|[]]]; auto.
Qed.
Lemma locate_found : forall fs cwd n dirs p, found_at fs n cwd dirs p (locate fs cwd n dirs p).
Proof.
  intros fs cwd n dirs p. unfold locate. destruct (absolute p) eqn:A; [apply found_absolute, A|].
  apply (first_existing_found fs cwd n p dirs []); trivial. intros e [].
Qed.
Lemma app_first_unique : forall A (P : A -> Prop) (x y : list A) a b x' y',
  x ++ a :: y = x' ++ b :: y' -> (forall e, In e x -> ~ P e) -> (forall e, In e x' -> ~ P e) -> P a -> P b -> a = b.
Proof.
  intros A P x. induction x as [|c x IH]; intros y a b x' y' E X X' Pa Pb; destruct x' as [|c' x']; simpl in E; injection E as E1 E2.
  - exact E1.
  - subst. elim (X' c'); [left; reflexivity | exact Pa].
  - subst. elim (X b); [left; reflexivity | exact Pb].
  - eapply IH; eauto; intros e I; [apply X | apply X']; right; exact I.
Qed.
Lemma found_fun : forall fs n cwd dirs p q q', found_at fs n cwd dirs p q -> found_at fs n cwd dirs p q' -> q = q'.
Proof.
  intros fs n cwd dirs p q q' H H'.
  destruct H as [A|b d a r A E B N|A B]; destruct H' as [A'|b' d' a' r' A' E' B' N'|A' B']; try congruence.
  - f_equal. rewrite E in E'.
    apply (app_first_unique _ (fun e => exists r, names fs n cwd (below e p) r) _ _ _ _ _ _ E'); eauto;
      intros e I [r0 H]; [elim (B e I r0 H) | elim (B' e I r0 H)].
  - elim (B' d) with r; trivial. rewrite E. apply in_elt.
  - elim (B d') with r'; trivial. rewrite E'. apply in_elt.
Qed.

(** ** what a new file changes *)
Section Changed.
  Variables (fs fs' : files) (r : list string) (x : list byte).
  Hypothesis same : forall q, q <> r -> fs' q = fs q.
  Hypothesis new : fs' r = Some (File x).
  Hypothesis old : fs r = None \/ exists y, fs r = Some (File y).

  Lemma kept_dir : forall q, fs q = Some Dir -> fs' q = Some Dir.
  Proof. intros q F. rewrite same; trivial. intros ->. destruct old as [O|[y O]]; congruence. Qed.
  Lemma kept_link : forall q l, fs q = Some (Link l) -> fs' q = Some (Link l).
  Proof. intros q l F. rewrite same; trivial. intros ->. destruct old as [O|[y O]]; congruence. Qed.
  Lemma kept_file : forall q y, fs q = Some (File y) -> exists z, fs' q = Some (File z).
  Proof.
    intros q y F. destruct (list_eq_dec string_dec q r) as [->|E]; [eauto|]. rewrite same by exact E. eauto.
  Qed.
  Lemma leads_still : forall n here todo r', leads fs n here todo r' -> leads fs' n here todo r'.
  Proof.
    induction 1 as [n here|n here todo r' L IH|n here c todo r' N F L IH|n here c y N F|n here c l todo r' N F L IH].
    - apply leads_here.
    - apply leads_up; auto.
    - eapply leads_dir; eauto using kept_dir.
    - apply kept_file in F. destruct F as [z F]. eapply leads_file; eauto.
    - eapply leads_link; eauto using kept_link.
  Qed.
  Lemma made_leads : forall n here todo r', can_make fs n here todo r' -> r' = r -> leads fs' n here todo r'.
  Proof.
    induction 1 as [n here c N F|n here todo r' L IH|n here c todo r' N F L IH|n here c l todo r' N F L IH]; intro R.
    - eapply leads_file; eauto. rewrite R. exact new.
    - apply leads_up; auto.
    - eapply leads_dir; eauto using kept_dir.
    - eapply leads_link; eauto using kept_link.
  Qed.
  (** what leads somewhere now did so before, unless it is the new file *)
  Lemma leads_before : forall n here todo r', leads fs' n here todo r' ->
    leads fs n here todo r' \/ r' = r /\ can_make fs n here todo r.
  Proof.
    assert (D : forall q, fs' q = Some Dir -> fs q = Some Dir).
    { intros q F. rewrite <- same; trivial. intros ->. congruence. }
    assert (K : forall q l, fs' q = Some (Link l) -> fs q = Some (Link l)).
    { intros q l F. rewrite <- same; trivial. intros ->. congruence. }
    induction 1 as [n here|n here todo r' L IH|n here c todo r' N F L IH|n here c y N F|n here c l todo r' N F L IH].
    - left. apply leads_here.
    - destruct IH as [IH|[E IH]]; [left; apply leads_up | right; split; [|apply make_up]]; trivial.
    - apply D in F. destruct IH as [IH|[E IH]]; [left; eapply leads_dir | right; split; [|eapply make_dir]]; eauto.
    - destruct (list_eq_dec string_dec (here ++ [c]) r) as [E|E].
      + destruct old as [O|[z O]].
        * right. split; [exact E|]. rewrite <- E. apply make_here; trivial. congruence.
        * left. rewrite <- E in O. eapply leads_file; eauto.
      + left. rewrite same in F by exact E. eapply leads_file; eauto.
    - apply K in F. destruct IH as [IH|[E IH]]; [left; eapply leads_link | right; split; [|eapply make_link]]; eauto.
  Qed.
End Changed.
