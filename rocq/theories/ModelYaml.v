(** Model of to_yaml and from_yaml: sd_mecha/extensions/model_configs.py:21-185, 314-364.  The text
    itself (yaml.safe_dump, yaml.load) is not modelled: both sides work with the plain data it stands for. *)
From Coq Require Import String List Bool.
From Verif Require Import Base ModelConfigs.
Import ListNotations.
Open Scope string_scope.
Open Scope list_scope.

(** plain data: what YAML can hold *)
Inductive plain := PNone | PBool (b : bool) | PInt (n : nat) | PStr (s : string) | PList (l : list plain) | PMap (l : list (string * plain)).

(** metadata of a dataclass field: [exclude] is absent, a value, or a function *)
Inductive exclude := NoEx | Ex (b : bool) | ExFn (f : string).
Record field := Field { f_name : string; f_serial : option string; f_exclude : exclude }.

(** Python objects; a component holds its keys; an instance of another dataclass, its fields *)
Inductive obj :=
| ONone | OBool (b : bool) | OInt (n : nat) | OStr (s : string) | ODtype (name : string) | OSize (l : list nat)
| OMap (l : list (string * obj)) | OIter (l : list obj) | OMethod
| OComponent (keys : list (string * obj)) | OData (fs : list (field * obj)).

(** [bool(o)] (Python) *)
Definition truthy (o : obj) : bool :=
  match o with
  | ONone => false | OBool b => b | OInt n => negb (Nat.eqb n 0) | OStr s => negb (String.eqb s "")
  | OSize l => negb (Nat.eqb (length l) 0) | OMap l => negb (Nat.eqb (length l) 0) | OIter l => negb (Nat.eqb (length l) 0)
  | _ => true
  end.
(** 25-26: the two functions used *)
Definition call_exclude (f : string) (v : obj) : bool :=
  if String.eqb f "lambda p: bool(p)" then truthy v else negb (truthy v).
(** 321-324: [callable(e) and e(v) or field.metadata.get("exclude", False)]; a function is true *)
Definition excluded (f : field) (v : obj) : bool :=
  match f_exclude f with
  | NoEx => false
  | Ex b => b
  | ExFn g => call_exclude g v || true
  end.

Section Map.
  Context (ser : obj -> result plain).
  (** model_configs.py:318-326: the fields of a dataclass *)
  Fixpoint ser_fields (fs : list (field * obj)) : result (list (string * plain)) :=
    match fs with
    | [] => Ok []
    | (f, v) :: fs' =>
      if excluded f v then ser_fields fs'
      else
        let* p := ser v in
        let* r := ser_fields fs' in
        Ok ((match f_serial f with Some s => s | None => f_name f end, p) :: r)
    end.
  (** model_configs.py:314-338, the values of a mapping *)
  Fixpoint ser_items (l : list (string * obj)) : result (list (string * plain)) :=
    match l with [] => Ok [] | (k, v) :: l' => let* p := ser v in let* r := ser_items l' in Ok ((k, p) :: r) end.
  (** model_configs.py:314-338, the elements of an iterable *)
  Fixpoint ser_list (l : list obj) : result (list plain) :=
    match l with [] => Ok [] | v :: l' => let* p := ser v in let* r := ser_list l' in Ok (p :: r) end.
End Map.

(** 314-337.  A component gives [serialize(obj.keys)], and [obj.keys] is a method. *)
Fixpoint serialize (o : obj) : result plain :=
  match o with
  | OComponent keys => Err ValueError
  | OData fs => let* l := ser_fields serialize fs in Ok (PMap l)
  | OStr s => Ok (PStr s)
  | OInt n => Ok (PInt n)
  | OBool b => Ok (PBool b)
  | ONone => Ok PNone
  | ODtype n => Ok (PStr n)
  | OSize l => Ok (PList (map PInt l))
  | OMap l => let* r := ser_items serialize l in Ok (PMap r)
  | OIter l => let* r := ser_list serialize l in Ok (PList r)
  | OMethod => Err ValueError
  end.

(** 21-35: a key's metadata *)
Record keymeta := KeyMeta { k_shape : option (list nat); k_dtype : option string; k_aliases : list string; k_optional : bool }.
Definition keymeta_obj (k : keymeta) : obj :=
  OData [ (Field "shape" None NoEx, match k_shape k with Some l => OSize l | None => ONone end);
          (Field "dtype" None NoEx, match k_dtype k with Some d => ODtype d | None => ONone end);
          (Field "aliases" None (ExFn "lambda p: bool(p)"), OIter (map OStr (k_aliases k)));
          (Field "optional" None (ExFn "lambda p: not p"), OBool (k_optional k)) ].
Definition component := list (string * keymeta).
Definition component_obj (c : component) : obj := OComponent (map (fun p => (fst p, keymeta_obj (snd p))) c).
(** 109-116 *)
Record config := Config { cf_identifier : string; cf_components : list (string * component) }.
Definition config_obj (c : config) : obj :=
  OData [ (Field "_identifier" (Some "identifier") NoEx, OStr (cf_identifier c));
          (Field "_components" (Some "components") NoEx, OMap (map (fun p => (fst p, component_obj (snd p))) (cf_components c)));
          (Field "_keys_cache" None (Ex true), ONone);
          (Field "_metadata_cache" None (Ex true), ONone);
          (Field "_aliases_cache" None (Ex true), ONone) ].
(** 340-359, up to the text *)
Definition to_plain (c : config) : result plain := serialize (config_obj c).

Section Load.
  (** the attributes of the module torch that are dtypes *)
  Context (is_dtype : string -> bool).
  (** fields of KeyMetadata from plain data: 28-32.  What the class would accept without looking at it
      (a number for a shape, ...) is outside of the model. *)
  Definition as_nats (l : list plain) : result (list nat) :=
    mapM (fun p => match p with PInt n => Ok n | _ => Err Unmodelled end) l.
  Definition as_strs (l : list plain) : result (list string) :=
    mapM (fun p => match p with PStr s => Ok s | _ => Err Unmodelled end) l.
  Definition load_shape (p : plain) : result (option (list nat)) :=
    match p with PNone => Ok None | PList l => let* ns := as_nats l in Ok (Some ns) | _ => Err Unmodelled end.
  Definition load_dtype (p : plain) : result (option string) :=
    match p with PNone => Ok None | PStr d => if is_dtype d then Ok (Some d) else Err AttributeError | _ => Err Unmodelled end.
  Definition known (names : list string) (l : list (string * plain)) : bool :=
    forallb (fun p => existsb (String.eqb (fst p)) names) l.
  (** [KeyMetadata( **v )] *)
  Definition load_key (p : plain) : result keymeta :=
    match p with
    | PMap l =>
      if negb (known ["shape"; "dtype"; "aliases"; "optional"] l) then Err TypeError else
      match dget String.eqb "shape" l, dget String.eqb "dtype" l with
      | Some s, Some d =>
        let* shape := load_shape s in
        let* dtype := load_dtype d in
        let* aliases := match dget String.eqb "aliases" l with None => Ok [] | Some (PList al) => as_strs al | Some _ => Err Unmodelled end in
        let* optional := match dget String.eqb "optional" l with None => Ok false | Some (PBool b) => Ok b | Some _ => Err Unmodelled end in
        Ok (KeyMeta shape dtype aliases optional)
      | _, _ => Err TypeError
      end
    | _ => Err Unmodelled
    end.
  Fixpoint load_items {A} (f : plain -> result A) (l : list (string * plain)) : result (list (string * A)) :=
    match l with [] => Ok [] | (k, p) :: l' => let* a := f p in let* r := load_items f l' in Ok ((k, a) :: r) end.
  (** 38-49: [ModelComponent(v)] *)
  Definition load_component (p : plain) : result component :=
    match p with PMap l => load_items load_key l | _ => Err Unmodelled end.
  (** 118-133, 176-185, 362-364: [ModelConfigImpl( **dict_config )] *)
  Definition from_plain (p : plain) : result config :=
    match p with
    | PMap l =>
      if negb (known ["identifier"; "components"] l) then Err TypeError else
      match dget String.eqb "identifier" l, dget String.eqb "components" l with
      | Some (PStr id), Some (PMap comps) =>
        let* _ := config_new id in
        let* cs := load_items load_component comps in
        Ok (Config id cs)
      | Some _, Some _ => Err Unmodelled
      | _, _ => Err TypeError
      end
    | _ => Err TypeError
    end.
End Load.

(** 148-155: the keys of all components, later ones in place of earlier ones of the same name *)
Definition config_keys (c : config) : list (string * keymeta) :=
  dupdate String.eqb [] (flat_map (fun p => dupdate String.eqb [] (snd p)) (cf_components c)).
