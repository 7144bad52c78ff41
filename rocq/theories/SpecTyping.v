(** What the annotations of merge methods mean, apart from the functions that
    decide it. *)
From Coq Require Import String List Bool Arith.
From Verif Require Import Base ModelTyping.
Import ListNotations.

(** a class hierarchy, as Python has them: a preorder, [types.UnionType] cannot be
    derived from and derives from none of the classes named in annotations *)
Record hierarchy (sub : cls -> cls -> bool) : Prop := {
  h_refl : forall c, sub c c = true;
  h_trans : forall a b c, sub a b = true -> sub b c = true -> sub a c = true;
  h_union_final : forall c, sub c CUnionType = true -> c = CUnionType;
  h_union_apart : forall d, In d [CStr; CInt; CFloat; CBool; CNone; CTensor; CStateDict] ->
    sub CUnionType d = false }.

(** objects of class [c] are of type [t]; the arguments of an alias are not looked at *)
Fixpoint of_type (sub : cls -> cls -> bool) (c : cls) (t : ty) : Prop :=
  match t with
  | TCls d | TGen d _ => sub c d = true
  | TVar l | TUnion l | TTUnion l =>
      (fix some l := match l with [] => False | a :: l' => of_type sub c a \/ some l' end) l
  | TForm => False
  end.

(** every object of type [s] is of type [t] *)
Definition included (sub : cls -> cls -> bool) (s t : ty) : Prop :=
  forall c, of_type sub c s -> of_type sub c t.

(** types without the class [types.UnionType] itself *)
Inductive proper : ty -> Prop :=
| proper_cls : forall c, c <> CUnionType -> proper (TCls c)
| proper_gen : forall c l, c <> CUnionType -> proper (TGen c l)
| proper_union : forall l, Forall proper l -> proper (TUnion l)
| proper_tunion : forall l, proper (TTUnion l)
| proper_var : forall l, proper (TVar l)
| proper_form : proper TForm.

(** classes, aliases, and [|] of these *)
Inductive plain : ty -> Prop :=
| plain_cls : forall c, c <> CUnionType -> plain (TCls c)
| plain_gen : forall c l, c <> CUnionType -> plain (TGen c l)
| plain_union : forall l, Forall plain l -> plain (TUnion l).

(** classes and unions of classes, of either kind *)
Inductive flat : ty -> Prop :=
| flat_cls : forall c, flat (TCls c)
| flat_union : forall l, Forall flat l -> flat (TUnion l)
| flat_tunion : forall l, Forall flat l -> flat (TTUnion l).

(** the members of a union, or the arguments of an alias *)
Definition members (t : ty) : list ty :=
  match t with TGen _ l | TUnion l | TTUnion l => l | _ => [] end.

(** the class of a class or of an alias *)
Definition class_of (t : ty) : option cls :=
  match t with TCls c | TGen c _ => Some c | _ => None end.

(** what a parameter can be declared as *)
Definition supported (sub : cls -> cls -> bool) (allowed : list cls) (t : ty) : Prop :=
  (exists l, t = TVar l) \/ exists c d, class_of t = Some c /\ In d allowed /\ sub c d = true.

(** the type that is kept: the first member of what has [None] among its members *)
Definition keeps (i k : ty) : Prop :=
  (In (TCls CNone) (members i) /\ exists l, members i = k :: l) \/
  (~ In (TCls CNone) (members i) /\ k = i).
