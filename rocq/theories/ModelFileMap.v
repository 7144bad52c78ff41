(** An open safetensors file used as a Python mapping: streaming.py:59-74, 77-128,
    over the reads of ModelStream.v; and the length of one that is being written. *)
From Coq Require Import String List Bool Arith NArith.
From Verif Require Import Base Json ModelStream ModelEval.
Import ListNotations.
Open Scope string_scope.
Open Scope list_scope.

(** an InSafetensorsDict: streaming.py:77-88; once closed its header is None, the
    buffers live on in the tensors that view them: 104-109 *)
Record handle := Handle { h_ins : ins; h_open : bool }.

(** streaming.py:104-109 close, also called by 90-91 __del__ *)
Definition h_close (h : handle) : handle := Handle (h_ins h) false.

(** streaming.py:93-96 __getitem__; [key not in None] is a TypeError *)
Definition h_getitem (cap : nat) (h : handle) (k : string) : result view * handle :=
  if h_open h then
    let r := in_get cap (h_ins h) k in (fst r, Handle (snd r) true)
  else (Err TypeError, h).

(** [k in d]: Mapping.__contains__, which reads the tensor; streaming.py:59, 77 *)
Definition h_contains (cap : nat) (h : handle) (k : string) : result bool * handle :=
  let r := h_getitem cap h k in
  (match fst r with
   | Ok _ => Ok true
   | Err e => if is_key_error e then Ok false else Err e
   end, snd r).

(** streaming.py:101-102 __len__; [len(None)] is a TypeError *)
Definition h_len (h : handle) : result nat :=
  if h_open h then Ok (in_len (h_ins h)) else Err TypeError.

(** streaming.py:111-116 keys, and 98-99 __iter__; [None.keys] is an AttributeError.
    The generator is taken as the list it gives. *)
Definition h_keys (h : handle) : result (list string) :=
  if h_open h then Ok (in_keys (h_ins h)) else Err AttributeError.

(** the loop of streaming.py:126-128, run to its end *)
Fixpoint read_all (cap : nat) (s : ins) (ks : list string) : result (list (string * view)) * ins :=
  match ks with
  | [] => (Ok [], s)
  | k :: ks' =>
      match in_get cap s k with
      | (Err e, s1) => (Err e, s1)
      | (Ok w, s1) =>
          let r := read_all cap s1 ks' in
          (let* l := fst r in Ok ((k, w) :: l), snd r)
      end
  end.

(** streaming.py:126-128 items *)
Definition h_items (cap : nat) (h : handle) : result (list (string * view)) * handle :=
  match h_keys h with
  | Ok ks => let r := read_all cap (h_ins h) ks in (fst r, Handle (snd r) true)
  | Err e => (Err e, h)
  end.

(** streaming.py:122-124 values *)
Definition h_values (cap : nat) (h : handle) : result (list view) * handle :=
  let r := h_items cap h in (let* l := fst r in Ok (map snd l), snd r).

(** the shape and dtype of a header entry: streaming.py:120, 24-28; a shape that is
    no list of numbers is not modelled *)
Definition meta_info (v : json) : result (list N * dtype) :=
  match v with
  | JObj fields =>
    match dget String.eqb "shape" fields with
    | Some (JArr l) =>
      match dget String.eqb "dtype" fields with
      | Some (JStr dn) =>
        match dtype_of_name dn with
        | Some d => let* sh := get_nums l in Ok (sh, d)
        | None => Err KeyError
        end
      | Some (JNum _) => Err KeyError
      | Some _ => Err TypeError
      | None => Err KeyError
      end
    | Some _ => Err Unmodelled
    | None => Err KeyError
    end
  | _ => Err TypeError
  end.

(** streaming.py:118-120 metadata, run to its end *)
Definition h_metadata (h : handle) : result (list (string * (list N * dtype))) :=
  let* ks := h_keys h in
  mapM (fun k =>
    match dget String.eqb k (in_header (h_ins h)) with
    | Some v => let* m := meta_info v in Ok (k, m)
    | None => Err KeyError
    end) ks.

(** streaming.py:235-236 OutSafetensorsDict.__len__ *)
Definition out_len (s : ost) : nat := length (o_hdr s).
