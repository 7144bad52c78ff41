(** Model of model configs and how inputs get one: identifiers and registries
    (extensions/model_configs.py, merge_spaces.py, model_formats.py, merge_methods.py),
    structural configs, inference and the mandatory key check (merging.py:430-508), and the
    metadata cache [merge] works on (merging.py:161-168).
    Shapes are represented by their number of elements, which is all that is compared. *)
From Coq Require Import String Ascii List Bool Arith.
From Verif Require Import Base.
Import ListNotations.
Open Scope string_scope.
Open Scope list_scope.
Open Scope nat_scope.

(** ** identifiers *)

(** [re.fullmatch] of a sequence of character classes, each taken once or, with [+],
    one or more times: all ways to split the string are tried *)
Definition item := ((ascii -> bool) * bool)%type.
Fixpoint fullmatch (its : list item) (s : chars) : bool :=
  match s with
  | [] => match its with [] => true | _ => false end
  | c :: s' =>
    match its with
    | [] => false
    | (f, plus) :: its' => f c && (fullmatch its' s' || (plus && fullmatch its s'))
    end
  end.

(** [[a-b]] in a regular expression *)
Definition in_range (a b c : ascii) : bool := (nat_of_ascii a <=? nat_of_ascii c) && (nat_of_ascii c <=? nat_of_ascii b).
(** [[a-z0-9._+]] *)
Definition ident_char (c : ascii) : bool :=
  in_range "a" "z" c || in_range "0" "9" c || Ascii.eqb c "." || Ascii.eqb c "_" || Ascii.eqb c "+".
(** ["[a-z0-9._+]+-[a-z0-9._+]+"]: model_configs.py:119 *)
Definition ident_re : list item := [(ident_char, true); (Ascii.eqb "-"%char, false); (ident_char, true)].

(** [s.split("-")] *)
Fixpoint split_dash (s : chars) : list chars :=
  match s with
  | [] => [[]]
  | c :: s' => if Ascii.eqb c "-" then [] :: split_dash s'
               else match split_dash s' with p :: ps => (c :: p) :: ps | [] => [[c]] end
  end.

(** ModelConfigImpl.__post_init__ and the two halves: model_configs.py:118-143 *)
Definition config_new (id : string) : result string :=
  if fullmatch ident_re (s2l id) then Ok id else Err ValueError.
Definition nth_piece (i : nat) (id : string) : result string :=
  match nth_error (split_dash (s2l id)) i with Some p => Ok (l2s p) | None => Err IndexError end.
Definition architecture (id : string) : result string := nth_piece 0 id.
Definition implementation (id : string) : result string := nth_piece 1 id.

(** ** registries *)
Section Registries.
  Context {C F M : Type}.
  (** model configs (base, aux), merge spaces, model formats, merge methods and conversions *)
  Record registries := Regs {
    r_base : list (string * C);
    r_aux : list (string * C);
    r_spaces : list (string * string);
    r_formats : list (string * F);
    r_methods : list (string * M);
    r_convs : list (string * M) }.

  (** the calls that register something *)
  Inductive registration :=
  | RBase (id : string) (c : C)        (* model_configs.register: 367-371 *)
  | RAux (id : string) (c : C)         (* model_configs.register_aux: 374-378 *)
  | RSpace (id : string)               (* register_merge_space: merge_spaces.py:33-36 *)
  | RFormat (id : string) (f : F)      (* register_model_format: model_formats.py:44-59 *)
  | RMethod (id : string) (m : M) (conversion : bool). (* merge_method: merge_methods.py:498-515 *)

  (** the effect of a registration: model_configs.py:367-378, merge_spaces.py:33-36, model_formats.py:44-59, merge_methods.py:498-515 *)
  Definition register (r : registries) (x : registration) : result registries :=
    match x with
    | RBase id c =>
      if dmem String.eqb id (r_base r) || dmem String.eqb id (r_aux r) then Err ValueError
      else Ok (Regs (dset String.eqb id c (r_base r)) (r_aux r) (r_spaces r) (r_formats r) (r_methods r) (r_convs r))
    | RAux id c =>
      if dmem String.eqb id (r_base r) || dmem String.eqb id (r_aux r) then Err ValueError
      else Ok (Regs (r_base r) (dset String.eqb id c (r_aux r)) (r_spaces r) (r_formats r) (r_methods r) (r_convs r))
    | RSpace id =>
      if dmem String.eqb id (r_spaces r) then Err ValueError
      else Ok (Regs (r_base r) (r_aux r) (dset String.eqb id id (r_spaces r)) (r_formats r) (r_methods r) (r_convs r))
    | RFormat id f =>
      if dmem String.eqb id (r_formats r) then Err ValueError
      else Ok (Regs (r_base r) (r_aux r) (r_spaces r) (dset String.eqb id f (r_formats r)) (r_methods r) (r_convs r))
    | RMethod id m conversion =>
      Ok (Regs (r_base r) (r_aux r) (r_spaces r) (r_formats r) (dset String.eqb id m (r_methods r))
               (if conversion then dset String.eqb id m (r_convs r) else r_convs r))
    end.

  (** a failed registration leaves the registries as they were *)
  Definition register_all (r : registries) (l : list registration) : registries :=
    fold_left (fun r x => match register r x with Ok r' => r' | Err _ => r end) l r.

  (** what a config name stands for: model_configs.py:381-405 *)
  Inductive resolved := RConfig (c : C) | RInfer.
  (** model_configs.resolve: 381-405; unknown names raise *)
  Definition resolve_config (r : registries) (id : string) : result resolved :=
    match dget String.eqb id (r_base r) with
    | Some c => Ok (RConfig c)
    | None =>
      match dget String.eqb id (r_aux r) with
      | Some c => Ok (RConfig c)
      | None => if String.eqb id "infer" then Ok RInfer else Err ValueError
      end
    end.
  Definition lookup {A} (l : list (string * A)) (id : string) : result A :=
    match dget String.eqb id l with Some a => Ok a | None => Err ValueError end.
  (** merge_spaces.resolve: 39-44, model_formats.resolve: 62-67, merge_methods.resolve: 532-537 *)
  Definition resolve_space r := lookup (r_spaces r).
  Definition resolve_format r := lookup (r_formats r).
  Definition resolve_method r := lookup (r_methods r).
  (** merge_methods.get_all_converters: 544-545 *)
  Definition converter_named r := lookup (r_convs r).
End Registries.
Arguments registries : clear implicits.
Arguments registration : clear implicits.

(** ** what is known about a key: merging.py:377-384, 391, model_configs.py:21-35 *)

(** KeyMetadata, made for in-memory dicts, or TensorMetadata, from the header of a file:
    the latter has no [.aliases] and no [.metadata()] *)
Inductive kmeta := KM (numel : option nat) | TM (numel : option nat).
Definition km_shape (m : kmeta) : option nat := match m with KM n | TM n => n end.
Definition km_numel (m : kmeta) : result nat :=     (* [m.metadata().shape.numel()] *)
  match m with KM (Some n) => Ok n | KM None => Err AttributeError | TM _ => Err AttributeError end.
Definition km_aliases (m : kmeta) : result (list string) := (* [m.aliases] *)
  match m with KM _ => Ok [] | TM _ => Err AttributeError end.

(** one input of unknown config joins the structural config: merging.py:445-452.
    [struct] is the shared dict of keys. *)
Definition join_key (struct metadata : list (string * kmeta)) (k : string) : result (list (string * kmeta)) :=
  match dget String.eqb k metadata with
  | None => Ok (ddel String.eqb k struct)
  | Some new =>
    match dget String.eqb k struct with
    | None => Err KeyError
    | Some old =>
      match km_shape old with
      | None => Ok (dset String.eqb k new struct)
      | Some _ =>
        match km_shape new with
        | None => Ok struct
        | Some _ => let* a := km_numel new in let* b := km_numel old in
                    Ok (if b <? a then dset String.eqb k new struct else struct)
        end
      end
    end
  end.
Fixpoint join_keys (struct metadata : list (string * kmeta)) (ks : list string) : result (list (string * kmeta)) :=
  match ks with
  | [] => Ok struct
  | k :: ks' => let* s := join_key struct metadata k in join_keys s metadata ks'
  end.
Definition join_structural (struct metadata : list (string * kmeta)) : result (list (string * kmeta)) :=
  match struct with
  | [] => Ok (dupdate String.eqb [] metadata)
  | _ => join_keys struct metadata (map fst struct)
  end.

(** check_model_config on a structural config with [strip_extra_keys]: it reads the
    aliases of every key: merging.py:487-491 *)
Definition check_structural (struct : list (string * kmeta)) (strip : bool) : result unit :=
  if strip then let* _ := mapM (fun p => km_aliases (snd p)) struct in Ok tt else Ok tt.

(** all inputs of unknown config, in the order they are visited: merging.py:373-398, 441-453 *)
Fixpoint load_structural (strip : bool) (struct : list (string * kmeta)) (inputs : list (list (string * kmeta))) : result (list (string * kmeta)) :=
  match inputs with
  | [] => Ok struct
  | m :: inputs' =>
    let* s := join_structural struct m in
    let* _ := check_structural s strip in
    load_structural strip s inputs'
  end.

(** what [merge] then iterates over: [recipe.model_config.metadata()], model_configs.py:246-252 *)
Definition structural_keys (struct : list (string * kmeta)) : result (list string) :=
  let* _ := mapM (fun p => match snd p with KM _ => Ok tt | TM _ => Err AttributeError end) struct in
  Ok (map fst struct).

(** the keys merged when all inputs are structural: merging.py:430-456 *)
Definition merge_structural (strip : bool) (inputs : list (list (string * kmeta))) : result (list string) :=
  let* s := load_structural strip [] inputs in structural_keys s.

(** an in-memory dict of tensors: merging.py:377-384; a file: merging.py:391 *)
Definition in_memory (d : list (string * nat)) : list (string * kmeta) := map (fun p => (fst p, KM (Some (snd p)))) d.
Definition from_file (d : list (string * nat)) : list (string * kmeta) := map (fun p => (fst p, TM (Some (snd p)))) d.

(** ** inference: merging.py:462-481.  The comparisons with [0.1 * n] and [0.9 * n] in
    double precision agree with the exact ones below for all feasible [n]: 0.1 and 0.9 are
    represented a relative 2^-54 or less above their values, so a product that is an
    integer rounds to it.  Sets are lists without a particular order. *)
Record cfg := Cfg { c_id : string; c_keys : list string; c_aliases : list string }.
Definition mem (k : string) (l : list string) : bool := existsb (String.eqb k) l.
Definition matched (sd : list string) (c : cfg) : nat :=
  length (filter (fun k => mem k (c_keys c) || mem k (c_aliases c)) (nodup string_dec sd)).

(** how many keys of the state dict each config has, for the configs kept: merging.py:462-481 *)
Fixpoint affinities (n : nat) (sd : list string) (configs : list cfg) : list (cfg * nat) :=
  match configs with
  | [] => []
  | c :: configs' =>
    let m := matched sd c in
    (if n <=? 10 * m then [(c, m)] else []) ++
    (if (m =? n) && (9 * length (c_keys c) <=? 10 * m) then [] else affinities n sd configs')
  end.

(** distinct values, largest first *)
Fixpoint insert_nat (n : nat) (l : list nat) : list nat :=
  match l with
  | [] => [n]
  | m :: l' => if m <? n then n :: l else if n =? m then l else m :: insert_nat n l'
  end.
Definition sort_desc_set (l : list nat) : list nat := fold_right insert_nat [] l.

(** merging.py:462-481: the configs grouped by affinity, the best first *)
Definition infer_model_configs (configs : list cfg) (sd : list string) : list (list cfg) :=
  let a := affinities (length (nodup string_dec sd)) sd configs in
  map (fun n => map fst (filter (fun p => snd p =? n) a)) (sort_desc_set (map snd a)).

(** __determine_model_config for an input without config: merging.py:430-439.
    [param] is the config its parameter asks for; [infer] says the config was given as "infer".
    [Ok None] stands for a structural config *)
Definition determine (configs : list cfg) (sd : list string) (param : option string) (infer : bool) : result (option string) :=
  let groups := infer_model_configs configs sd in
  let wanted := match param with Some id => existsb (existsb (fun c => String.eqb (c_id c) id)) groups | None => false end in
  if wanted then Ok param
  else match groups with
       | [c] :: _ => Ok (Some (c_id c))
       | _ => if infer then Err RuntimeError else Ok None
       end.

(** ** check_mandatory_keys: merging.py:493-508 *)
Record mkey := MKey { mk_name : string; mk_aliases : list string; mk_optional : bool }.
Definition effective_name (sd : list string) (k : mkey) : string :=
  match find (fun a => mem a sd) (mk_aliases k) with Some a => a | None => mk_name k end.
Definition missing_keys (sd : list string) (keys : list mkey) : list string :=
  flat_map (fun k => if mk_optional k then [] else if mem (effective_name sd k) sd then [] else [effective_name sd k]) keys.
Definition check_mandatory (sd : list string) (keys : list mkey) : result unit :=
  match missing_keys sd keys with [] => Ok tt | _ => Err RuntimeError end.

(** ** the metadata cache: model_configs.py:157-164, merging.py:161-168 *)
Record mcfg := MCfg { m_id : string; m_comps : list (string * list string) }.
Definition add_key (k : string) (l : list string) : list string := if mem k l then l else l ++ [k].
(** OrderedDict of all the components' keys *)
Definition all_keys (c : mcfg) : list string := fold_left (fun acc k => add_key k acc) (flat_map snd (m_comps c)) [].

(** the metadata caches of the configs, by identifier *)
Definition caches := list (string * list string).
Definition metadata (st : caches) (c : mcfg) : list string :=
  match dget String.eqb (m_id c) st with Some l => l | None => all_keys c end.

(** a call of [merge]: its config, its options, and the extra keys found in its inputs *)
Record call := MCall { mc_cfg : mcfg; mc_omit_extra : bool; mc_omit_ema : bool; mc_extra : list string }.

(** the keys of the component "ema": merging.py:165-168 *)
Definition ema_keys (c : mcfg) : list string :=
  match dget String.eqb "ema" (m_comps c) with Some l => l | None => [] end.
(** [l] without the keys [del]: merging.py:165-168 *)
Definition without (l del : list string) : list string := filter (fun k => negb (mem k del)) l.

(** keys merged, and the caches afterwards: with [omit_extra_keys] the dict edited is the cached one *)
Definition merge_keys (st : caches) (x : call) : list string * caches :=
  let c := mc_cfg x in
  let m := metadata st c in
  let del := if mc_omit_ema x then ema_keys c else [] in
  if mc_omit_extra x then (without m del, dset String.eqb (m_id c) (without m del) st)
  else (without (fold_left (fun acc k => add_key k acc) (mc_extra x ++ m) []) del, dset String.eqb (m_id c) m st).

(** the caches after a history of merges *)
Definition after (h : list call) : caches := fold_left (fun st x => snd (merge_keys st x)) h [].
