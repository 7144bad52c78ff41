(** Looking up strings in a binary tree indexed by their bits: the same answers as the linear searches
    of the model, computed fast enough for checks over the thousands of keys of a builtin config. *)
From Coq Require Import String Ascii List Bool.
Import ListNotations.
Open Scope list_scope.

Definition bits_of (c : ascii) (rest : list bool) : list bool :=
  match c with Ascii a b c d e f g h => a :: b :: c :: d :: e :: f :: g :: h :: rest end.
Fixpoint bits (s : string) : list bool :=
  match s with EmptyString => [] | String c s' => bits_of c (bits s') end.
Lemma bits_inj : forall s s', bits s = bits s' -> s = s'.
Proof.
  induction s as [|c s IH]; intros [|c' s'] H; simpl in H; auto.
  - destruct c'; discriminate.
  - destruct c; discriminate.
  - destruct c, c'. simpl in H. injection H as <- <- <- <- <- <- <- <- H. f_equal. auto.
Qed.

Section Tree.
  Context {V : Type}.
  Inductive tree := Leaf | Node (v : option V) (l r : tree).
  Definition here (t : tree) : option V := match t with Leaf => None | Node v _ _ => v end.
  Definition zeros_side (t : tree) : tree := match t with Leaf => Leaf | Node _ l _ => l end.
  Definition ones_side (t : tree) : tree := match t with Leaf => Leaf | Node _ _ r => r end.
  Fixpoint tget (k : list bool) (t : tree) : option V :=
    match k with
    | [] => here t
    | b :: k' => match t with Leaf => None | Node _ l r => tget k' (if b then r else l) end
    end.
  Fixpoint tput (k : list bool) (v : V) (t : tree) : tree :=
    match k with
    | [] => Node (Some v) (zeros_side t) (ones_side t)
    | false :: k' => Node (here t) (tput k' v (zeros_side t)) (ones_side t)
    | true :: k' => Node (here t) (zeros_side t) (tput k' v (ones_side t))
    end.
  Lemma tget_leaf : forall k, tget k Leaf = None.
  Proof. intros [|]; auto. Qed.
  Lemma tget_tput_same : forall k v t, tget k (tput k v t) = Some v.
  Proof. induction k as [|[] k IH]; simpl; auto. Qed.
  Lemma tget_tput_other : forall k k' v t, k <> k' -> tget k (tput k' v t) = tget k t.
  Proof.
    induction k as [|b k IH]; intros [|b' k'] v t N; simpl; try congruence.
    - destruct b'; auto.
    - destruct b, t; simpl; auto; rewrite tget_leaf; auto.
    - destruct (bool_dec b b') as [<-|D].
      + assert (k <> k') by congruence. destruct b, t; simpl; rewrite IH by auto; auto using tget_leaf.
      + destruct b, b', t; simpl; try congruence; auto using tget_leaf.
  Qed.

  Definition lookup (t : tree) (k : string) : option V := tget (bits k) t.
  Definition insert (k : string) (v : V) (t : tree) : tree := tput (bits k) v t.
  Lemma lookup_insert : forall k k' v t, lookup (insert k' v t) k = if String.eqb k' k then Some v else lookup t k.
  Proof.
    intros k k' v t. unfold lookup, insert. destruct (String.eqb_spec k' k) as [<-|N].
    - apply tget_tput_same.
    - apply tget_tput_other. intros E. apply N. symmetry. apply bits_inj. auto.
  Qed.

  (** all values of a list, under their keys; the first one wins *)
  Definition index (key : V -> string) (l : list V) : tree := fold_right (fun v t => insert (key v) v t) Leaf l.
  Lemma lookup_index : forall key l k, lookup (index key l) k = find (fun v => String.eqb (key v) k) l.
  Proof.
    induction l as [|v l IH]; intros k; simpl; [apply tget_leaf|].
    rewrite lookup_insert, IH. auto.
  Qed.
End Tree.
Arguments tree : clear implicits.

(** membership *)
Definition names (l : list string) : tree string := index (fun s => s) l.
Definition is_in (t : tree string) (k : string) : bool := match lookup t k with Some _ => true | None => false end.
Lemma is_in_names : forall l k, is_in (names l) k = true <-> In k l.
Proof.
  intros l k. unfold is_in, names. rewrite lookup_index. split.
  - destruct (find _ l) as [s|] eqn:F; [|discriminate]. intros _. apply find_some in F as [I E].
    apply String.eqb_eq in E. subst; auto.
  - intros I. destruct (find _ l) as [s|] eqn:F; auto.
    pose proof (find_none _ _ F k I) as N. simpl in N. rewrite String.eqb_refl in N. discriminate.
Qed.

(** no element occurs twice *)
Fixpoint new_in (t : tree unit) (l : list string) : bool :=
  match l with
  | [] => true
  | x :: l' => match lookup t x with Some _ => false | None => new_in (insert x tt t) l' end
  end.
Definition nodupb (l : list string) : bool := new_in Leaf l.
Lemma new_in_spec : forall l t, new_in t l = true -> NoDup l /\ forall x, In x l -> lookup t x = None.
Proof.
  induction l as [|x l IH]; simpl; intros t H; [split; [constructor|tauto]|].
  destruct (lookup t x) eqn:X; [discriminate|]. apply IH in H as [N F]. split.
  - constructor; auto. intros I. apply F in I. rewrite lookup_insert, String.eqb_refl in I. discriminate.
  - intros y [<-|I]; auto. apply F in I. rewrite lookup_insert in I. destruct (String.eqb x y); [discriminate|auto].
Qed.
Lemma nodupb_NoDup : forall l, nodupb l = true -> NoDup l.
Proof. intros l H. apply new_in_spec in H. tauto. Qed.
