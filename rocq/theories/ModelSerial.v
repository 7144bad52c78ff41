(** Model of sd_mecha/serialization.py: the .mecha text format. *)
From Coq Require Import String Ascii List Bool Arith NArith ZArith Lia.
From Verif Require Import Base Dec Json PyStr ModelRecipe.
Import ListNotations.
Open Scope string_scope.
Open Scope list_scope.
Open Scope nat_scope.

(** ** Python built-ins *)

(** [text.split(sep)] for a one-character separator *)
Fixpoint split_on (sep : ascii) (l : chars) : list chars :=
  match l with
  | [] => [[]]
  | c :: l' =>
    if Ascii.eqb c sep then [] :: split_on sep l'
    else match split_on sep l' with
         | p :: ps => (c :: p) :: ps
         | [] => [[c]]
         end
  end.

(** [str(n)] *)
Definition dec_Z (z : Z) : chars :=
  match z with
  | Z0 => dec 0
  | Zpos p => dec (Npos p)
  | Zneg p => "-"%char :: dec (Npos p)
  end.

(** the optional sign of [int(text)] and [float(text)]: serialization.py:83, 90, 92 *)
Definition drop_sign (l : chars) : chars :=
  match l with
  | c :: l' => if Ascii.eqb c "-"%char || Ascii.eqb c "+"%char then l' else l
  | [] => []
  end.

(** digits with single underscores between them *)
Fixpoint more_digits (l : chars) : chars :=
  match l with
  | [] => []
  | c :: l' =>
    if is_digit c then more_digits l'
    else if Ascii.eqb c "_"%char then
      match l' with
      | d :: l'' => if is_digit d then more_digits l'' else l
      | [] => l
      end
    else l
  end.

(** a digit and what follows it, in [int(text)] and [float(text)]: serialization.py:83, 90, 92 *)
Definition digitpart (l : chars) : option chars :=
  match l with
  | c :: l' => if is_digit c then Some (more_digits l') else None
  | [] => None
  end.

(** [int(text)], ASCII digits only *)
Definition py_int (t : chars) : result Z :=
  let l := strip t in
  match digitpart (drop_sign l) with
  | Some [] =>
    let n := Z.of_N (undec (filter is_digit (drop_sign l))) in
    Ok (match l with "-"%char :: _ => - n | _ => n end)%Z
  | _ => Err ValueError
  end.

(** the exponent letter of [float(text)]: serialization.py:90 *)
Definition is_e (c : ascii) : bool := Ascii.eqb c "e"%char || Ascii.eqb c "E"%char.

(** the grammar of [float(text)] without inf and nan (the code calls float only
    on texts with a '.' or an 'e', which these spellings do not have) *)
Definition mantissa (l : chars) : option chars :=
  match digitpart l with
  | Some ("."%char :: r) => match digitpart r with Some r' => Some r' | None => Some r end
  | Some r => Some r
  | None => match l with "."%char :: r => digitpart r | _ => None end
  end.

(** whether [float(text)] succeeds: serialization.py:90 *)
Definition float_ok (l : chars) : bool :=
  match mantissa (drop_sign l) with
  | None => false
  | Some [] => true
  | Some (c :: r) => is_e c && match digitpart (drop_sign r) with Some [] => true | _ => false end
  end.

(** [float(text)]; the value is kept as its spelling *)
Definition py_float (t : chars) : result pyobj :=
  if float_ok (strip t) then Ok (VFloat (l2s (strip t))) else Err ValueError.

(** [pathlib.Path(text)] on POSIX: repeated slashes and "." components vanish;
    a leading double slash is kept *)
Definition path_root (l : chars) : chars :=
  match l with
  | "/"%char :: "/"%char :: "/"%char :: _ => ["/"%char]
  | "/"%char :: "/"%char :: _ => ["/"%char; "/"%char]
  | "/"%char :: _ => ["/"%char]
  | _ => []
  end.

(** the parts [pathlib.Path] keeps: serialization.py:58 *)
Definition path_part_ok (p : chars) : bool :=
  match p with
  | [] => false
  | ["."%char] => false
  | _ => true
  end.

(** [str(pathlib.Path(text))]: serialization.py:58, 188 *)
Definition path_norm (l : chars) : chars :=
  match path_root l ++ join ["/"%char] (filter path_part_ok (split_on "/"%char l)) with
  | [] => ["."%char]
  | r => r
  end.

(** ** Serializing: serialization.py:173-227 *)

(** [value.replace("\\", "\\\\").replace('"', "\\\"")] *)
Definition escape1 (c : ascii) : chars :=
  if Ascii.eqb c c_bslash then [c_bslash; c_bslash]
  else if Ascii.eqb c c_quote then [c_bslash; c_quote]
  else [c].
Definition quoted (s : string) : chars := c_quote :: flat_map escape1 (s2l s) ++ [c_quote].

(** [self.instructions.index(instruction)]: serialization.py:224 *)
Fixpoint index_of (x : chars) (l : list chars) : option nat :=
  match l with
  | [] => None
  | y :: l' => if list_eq_dec ascii_dec x y then Some 0 else option_map S (index_of x l')
  end.

(** serialization.py:222-227 __add_instruction *)
Definition add_instr (line : chars) (I : list chars) : chars * list chars :=
  match index_of line I with
  | Some i => ("&"%char :: dec (N.of_nat i), I)
  | None => ("&"%char :: dec (N.of_nat (length I)), I ++ [line])
  end.

(** the separator of serialization.py:203, 211 *)
Definition sp1 : chars := [" "%char].

Section SerLists.
  Variable ser : pyobj -> list chars -> result (chars * list chars).
  (** the positional arguments of visit_merge, in order: serialization.py:196-199 *)
  Fixpoint ser_list (l : list pyobj) (I : list chars) : result (list chars * list chars) :=
    match l with
    | [] => Ok ([], I)
    | v :: l' =>
      let* r := ser v I in
      let* rs := ser_list l' (snd r) in
      Ok (fst r :: fst rs, snd rs)
    end.
  (** [f"{k}={...}" for k, v in items] *)
  Fixpoint ser_kws (l : list (string * pyobj)) (I : list chars) : result (list chars * list chars) :=
    match l with
    | [] => Ok ([], I)
    | (k, v) :: l' =>
      let* r := ser v I in
      let* rs := ser_kws l' (snd r) in
      Ok ((s2l k ++ "="%char :: fst r) :: fst rs, snd rs)
    end.
End SerLists.

(** serialization.py:177-220: [__serialize_value] and the visit methods.
    [I] is the list of instructions emitted so far. *)
Fixpoint ser (v : pyobj) (I : list chars) : result (chars * list chars) :=
  match v with
  | VStr s => Ok (quoted s, I)
  | VDict l =>
    let* r := ser_kws ser l I in
    Ok (add_instr (s2l "dict " ++ join sp1 (fst r)) (snd r))
  | VInt z => Ok (dec_Z z, I)
  | VFloat s => Ok (s2l s, I)
  | VBool b => Ok (s2l (if b then "True" else "False"), I)    (* str(True): bool is an int *)
  | VNone => Ok (s2l "null", I)
  | VTensor _ | VPath _ => Err TypeError
  | VLit w None _ => ser w I
  | VLit w (Some c) s =>
    let* r := ser w I in
    Ok (add_instr (s2l "literal " ++ fst r ++ s2l " model_config=" ++ quoted c
                   ++ s2l " merge_space=" ++ quoted s) (snd r))
  | VModel p c s =>
    Ok (add_instr (s2l "model " ++ quoted p ++ s2l " model_config="
                   ++ match c with Some c => quoted c | None => s2l "null" end
                   ++ s2l " merge_space=" ++ quoted s) I)
  | VMerge m args kwargs =>
    let* ra := ser_list ser args I in
    let* rk := ser_kws ser kwargs (snd ra) in
    Ok (add_instr (join sp1 (s2l "merge" :: quoted m :: fst ra ++ fst rk)) (snd rk))
  end.

(** get_version_header(MECHA_FORMAT_VERSION): serialization.py:8, 169-170 *)
Definition version_header : chars := s2l "version 0.1.0".

(** serialization.py:139-166 serialize (without writing the output file) *)
Definition serialize (v : pyobj) : result chars :=
  let* r := ser v [] in
  Ok (join [c_nl] (version_header :: snd r)).

(** ** Deserializing: serialization.py:22-136 *)

(** state of [tokenize]: serialization.py:96-128 *)
Record tk := TK { k_toks : list chars; k_cur : chars; k_pre : chars; k_inq : bool; k_esc : bool }.

(** one pass of the loop of tokenize: serialization.py:102-123 *)
Definition tok_step (s : tk) (c : ascii) : tk :=
  let append st := TK (k_toks st) (k_cur st ++ [c]) (k_pre st) (k_inq st) false in
  if k_esc s then append s
  else if Ascii.eqb c c_bslash then TK (k_toks s) (k_cur s) (k_pre s) (k_inq s) true
  else if Ascii.eqb c c_quote then
    if k_inq s then TK (k_toks s ++ [k_pre s ++ c_quote :: k_cur s ++ [c_quote]]) [] [] false false
    else TK (k_toks s) [] (k_cur s) true false
  else if Ascii.eqb c " "%char && negb (k_inq s) then
    match k_cur s with
    | [] => s
    | _ => TK (k_toks s ++ [k_cur s]) [] (k_pre s) (k_inq s) false
    end
  else append s.

(** the loop of tokenize: serialization.py:102-123 *)
Definition tok_run (s : tk) (l : chars) : tk := fold_left tok_step l s.

(** the end of tokenize: serialization.py:124-128 *)
Definition tok_end (s : tk) : result (list chars) :=
  if k_inq s then Err ValueError
  else Ok (k_toks s ++ match k_cur s with [] => [] | c => [c] end).

(** serialization.py:96-128 *)
Definition tokenize (l : chars) : result (list chars) := tok_end (tok_run (TK [] [] [] false false) l).

(** serialization.py:230-234 CONSTANTS *)
Definition constant (l : chars) : option pyobj :=
  if list_eq_dec ascii_dec l (s2l "null") then Some VNone
  else if list_eq_dec ascii_dec l (s2l "true") then Some (VBool true)
  else if list_eq_dec ascii_dec l (s2l "false") then Some (VBool false)
  else None.

(** serialization.py:78-94 get_arg_value *)
Definition get_arg_value (results : list pyobj) (arg : chars) : result pyobj :=
  match constant arg with
  | Some v => Ok v
  | None =>
    if starts_with ["&"%char] arg then
      let* z := py_int (tl arg) in
      if (z <? 0)%Z || (Z.of_nat (length results) <=? z)%Z then Err ValueError
      else match nth_error results (Z.to_nat z) with Some v => Ok v | None => Err ValueError end
    else if starts_with [c_quote] arg && ends_with [c_quote] arg then
      Ok (VStr (l2s (removelast (tl arg))))
    else if has_char "."%char arg || existsb is_e arg then py_float arg
    else let* z := py_int arg in Ok (VInt z)
  end.

(** [arg.split('=', maxsplit=1)] when '=' occurs *)
Fixpoint split_eq (l : chars) : chars * chars :=
  match l with
  | [] => ([], [])
  | c :: l' => if Ascii.eqb c "="%char then ([], l') else let p := split_eq l' in (c :: fst p, snd p)
  end.

(** serialization.py:67-76 preprocess_args *)
Fixpoint preprocess (results : list pyobj) (args : list chars) (pos : list pyobj) (kw : list (string * pyobj))
  : result (list pyobj * list (string * pyobj)) :=
  match args with
  | [] => Ok (pos, kw)
  | a :: args' =>
    if has_char "="%char a then
      let* v := get_arg_value results (snd (split_eq a)) in
      preprocess results args' pos (dset String.eqb (l2s (fst (split_eq a))) v kw)
    else
      let* v := get_arg_value results a in
      preprocess results args' (pos ++ [v]) kw
  end.

(** a call with a keyword the function does not have raises: serialization.py:56, 59 *)
Definition only_keys (ks : list string) (kw : list (string * pyobj)) : bool :=
  forallb (fun kv => mem_str (fst kv) ks) kw.

(** [model_config=]: a string is resolved, None is None; anything else would be
    stored as it is and is not modelled *)
Definition config_arg (E : env) (o : option pyobj) : result (option string) :=
  match o with
  | None | Some VNone => Ok None
  | Some (VStr c) => let* x := resolve_config E c in Ok (Some x)
  | Some _ => Err Unmodelled
  end.

(** [dict( *positional_args, **keyword_args)] *)
Definition cmd_dict (pos : list pyobj) (kw : list (string * pyobj)) : result pyobj :=
  match pos with
  | [] => Ok (VDict kw)
  | [VDict d] => Ok (VDict (dupdate String.eqb d kw))
  | [VStr s] => match s2l s with [] => Ok (VDict kw) | _ => Err ValueError end
  | _ => Err TypeError
  end.

(** the command "literal": serialization.py:55-56, recipe_nodes.py:75-97 *)
Definition cmd_literal (E : env) (pos : list pyobj) (kw : list (string * pyobj)) : result pyobj :=
  if negb (only_keys ["value"; "model_config"; "merge_space"] kw) then Err TypeError else
  let* v := match pos, dget String.eqb "value" kw with
            | [v], None => Ok v
            | [], Some v => Ok v
            | _, _ => Err TypeError
            end in
  let* c := config_arg E (dget String.eqb "model_config" kw) in
  let* s := match dget String.eqb "merge_space" kw with
            | None | Some VNone => Ok None
            | Some (VStr s) => let* x := resolve_space E s in Ok (Some x)
            | Some _ => Err Unmodelled
            end in
  mk_literal E v c s.

(** the command "model": serialization.py:57-59, recipe_nodes.py:122-135 *)
Definition cmd_model (E : env) (pos : list pyobj) (kw : list (string * pyobj)) : result pyobj :=
  match pos with
  | [] => Err IndexError
  | VStr p :: rest =>
    match rest with
    | _ :: _ => Err TypeError
    | [] =>
      if negb (only_keys ["model_config"; "merge_space"] kw) then Err TypeError else
      let* c := config_arg E (dget String.eqb "model_config" kw) in
      let* s := match dget String.eqb "merge_space" kw with
                | None => resolve_space E "weight"
                | Some (VStr s) => resolve_space E s
                | Some _ => Err Unmodelled
                end in
      Ok (VModel (l2s (path_norm (s2l p))) c s)
    end
  | _ :: _ => Err TypeError
  end.

(** the command "merge": serialization.py:60-63 *)
Definition cmd_merge (E : env) (pos : list pyobj) (kw : list (string * pyobj)) : result pyobj :=
  match pos with
  | [] => Err ValueError
  | VStr m :: args => let* g := resolve_method E m in create_recipe E m g args kw
  | VDict _ :: _ => Err TypeError
  | _ :: _ => Err ValueError
  end.

(** serialization.py:46-65 parse; [None] for a comment *)
Definition parse_line (E : env) (results : list pyobj) (line0 : chars) : result (option pyobj) :=
  let line := strip line0 in
  if starts_with ["#"%char] line then Ok None else
  let* toks := tokenize line in
  match toks with
  | [] => Err ValueError
  | cmd :: args =>
    let* pk := preprocess results args [] [] in
    let go (r : result pyobj) := let* v := r in Ok (Some v) in
    if String.eqb (l2s cmd) "dict" then go (cmd_dict (fst pk) (snd pk))
    else if String.eqb (l2s cmd) "literal" then go (cmd_literal E (fst pk) (snd pk))
    else if String.eqb (l2s cmd) "model" then go (cmd_model E (fst pk) (snd pk))
    else if String.eqb (l2s cmd) "merge" then go (cmd_merge E (fst pk) (snd pk))
    else Err ValueError
  end.

(** the loop of serialization.py:130-134 *)
Fixpoint run_lines (E : env) (results : list pyobj) (lines : list chars) : result (list pyobj) :=
  match lines with
  | [] => Ok results
  | l :: ls =>
    let* o := parse_line E results l in
    run_lines E (match o with Some v => results ++ [v] | None => results end) ls
  end.

(** serialization.py:130-136: [results[-1]] *)
Definition last_result (l : list pyobj) : result pyobj :=
  match rev l with v :: _ => Ok v | [] => Err IndexError end.

(** serialization.py:33-43 and 130-136 *)
Definition deserialize_lines (E : env) (lines : list chars) : result pyobj :=
  match lines with
  | [] => Err IndexError
  | h :: rest =>
    if negb (starts_with (s2l "version") h) then Err RuntimeError
    else if list_eq_dec ascii_dec h version_header then
      let* rs := run_lines E [] rest in last_result rs
    else Err RuntimeError
  end.

(** deserialize on a string: serialization.py:33-34 *)
Definition deserialize (E : env) (text : chars) : result pyobj :=
  deserialize_lines E (split_on c_nl text).
