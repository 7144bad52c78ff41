(** Vocabulary for the properties of evaluation: well-formed recipes, the inputs of
    a merge, how deep a recipe is, which inputs fail, and what a merge method is
    handed.  Nothing here refers to how the evaluator visits inputs. *)
From Coq Require Import String List Bool Arith ZArith.
From Verif Require Import Base ModelEval.
Import ListNotations.
Open Scope string_scope.
Open Scope list_scope.
Open Scope nat_scope.

Section SpecEval.
  Context {T : Type}.

  (** input number [i] of a merge is recipe [n], declared with kind [k] *)
  Inductive input (m : mmethod T) (args : list (node T)) (kw : list (string * node T)) : nat -> kind -> node T -> Prop :=
  | input_arg : forall i k n, nth_error args i = Some n -> nth_error (m_args m) i = Some k -> input m args kw i k n
  | input_vararg : forall i k n, nth_error args i = Some n -> length (m_args m) <= i -> m_vararg m = Some k -> input m args kw i k n
  | input_kw : forall i x k n, nth_error kw i = Some (x, n) -> In (x, k) (m_kw m) -> input m args kw (length args + i) k n.

  (** every merge of the recipe has an input, and a declared kind for each input;
      this is what [create_recipe] builds (C16, C17) *)
  Inductive wf : node T -> Prop :=
  | wf_lit : forall v, wf (NLit v)
  | wf_dict : forall d c s, Forall (fun p => wf (snd p)) d -> wf (NDict d c s)
  | wf_model : forall p g k c s, wf (NModel p g k c s)
  | wf_merge : forall m args kw c,
      Forall wf args -> Forall (fun p => wf (snd p)) kw ->
      args <> [] \/ kw <> [] ->
      (length args <= length (m_args m) \/ m_vararg m <> None) ->
      NoDup (map fst (m_kw m)) ->
      (forall x, In x (map fst kw) -> In x (map fst (m_kw m))) ->
      wf (NMerge m args kw c).

  (** how deep a recipe is: data 0, model files 1, a merge one more than its
      deepest input; recipes inside a dict do not count *)
  Fixpoint height (n : node T) : nat :=
    match n with
    | NLit _ | NDict _ _ _ => 0
    | NModel _ _ _ _ _ => 1
    | NMerge _ args kw _ =>
      S (Nat.max (fold_right (fun a h => Nat.max (height a) h) 0 args)
                 (fold_right (fun p h => match p with (_, a) => Nat.max (height a) h end) 0 kw))
    end.

  Definition is_missing_outcome (r : result (value T)) : Prop := exists k, r = Err (StateDictKeyError k).

  (** same value, both missing the key, or the same error *)
  Definition same_outcome (r s : result (value T)) : Prop :=
    r = s \/ (is_missing_outcome r /\ is_missing_outcome s).

  Section WithEval.
    (** the meaning of recipes: a key to an outcome *)
    Variable ev : node T -> string -> result (value T).
    Variable converts : value T -> ety -> result (value T).

    (** input [i], wanted as a value, fails at the key with error [e] *)
    Definition fails m args kw key i e : Prop :=
      exists t n, input m args kw i (KVal t) n /\ ev n key = Err e.

    (** inputs are evaluated deepest first, in order among equally deep ones *)
    Definition evaluated_before m args kw i j : Prop :=
      exists k n k' n', input m args kw i k n /\ input m args kw j k' n' /\
        (height n' < height n \/ (height n = height n' /\ i < j)).

    (** the values of inputs that do not fail have the declared type or convert to it *)
    Definition convertible m args kw key : Prop :=
      forall i t n v, input m args kw i (KVal t) n -> ev n key = Ok v -> exists w, converts v t = Ok w.

    (** what the method is handed for an input: the value converted to the declared
        type, or a state dict that evaluates and converts on demand *)
    Definition handed key (k : kind) (n : node T) (x : inp T) : Prop :=
      match k with
      | KVal t => exists v w, ev n key = Ok v /\ converts v t = Ok w /\ x = IVal w
      | KSd t => x = ISd (fun k' => match ev n k' with Ok v => converts v t | Err e => Err e end) (node_cfg n)
      end.

    (** recipes evaluated, at the same key, on the way to the result of [n] because
        some method wants their value *)
    Inductive value_part : node T -> node T -> Prop :=
    | vp_here : forall m args kw c i t n, input m args kw i (KVal t) n -> value_part (NMerge m args kw c) n
    | vp_deep : forall m args kw c i t n p, input m args kw i (KVal t) n -> value_part n p -> value_part (NMerge m args kw c) p.
  End WithEval.
End SpecEval.
