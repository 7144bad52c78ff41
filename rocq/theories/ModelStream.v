(** Model of sd_mecha/streaming.py: reading and writing safetensors files.
    Files and buffers are lists of bytes; positions and lengths are naturals.
    [cap] is the largest number of bytes one raw [read(2)]/[write(2)] transfers
    (the files are opened with [buffering=0], and the code does not loop on
    short transfers); it is a parameter of the model. *)
From Coq Require Import String Ascii List Bool Arith NArith Lia.
From Verif Require Import Base Dec Json PyStr.
Import ListNotations.

(** the byte 0 (what bytearray(n) and a hole in a file hold: streaming.py:145, 215, 256, 274) *)
Definition zero_byte : byte := ascii_of_N 0.
(** [bytearray(n)]: streaming.py:145, 215, 274 *)
Definition zeros (n : nat) : list byte := repeat zero_byte n.

(** ** dtypes: streaming.py:369-390 (DTYPE_MAPPING, DTYPE_REVERSE_MAPPING) *)
Inductive dtype : Type :=
| F64 | I64 | F32 | I32 | F16 | BF16 | I16 | I8 | F8_E4M3 | F8_E5M2 | BOOL
| U64 | U32 | U16 | U8.

(** the names of the header: the keys of DTYPE_MAPPING, streaming.py:369-388 *)
Definition dtype_name (d : dtype) : string :=
  match d with
  | F64 => "F64" | I64 => "I64" | F32 => "F32" | I32 => "I32" | F16 => "F16"
  | BF16 => "BF16" | I16 => "I16" | I8 => "I8" | F8_E4M3 => "F8_E4M3"
  | F8_E5M2 => "F8_E5M2" | BOOL => "BOOL" | U64 => "U64" | U32 => "U32"
  | U16 => "U16" | U8 => "U8"
  end.

(** the sizes in DTYPE_MAPPING: streaming.py:369-388 *)
Definition dtype_size (d : dtype) : nat :=
  match d with
  | F64 | I64 | U64 => 8
  | F32 | I32 | U32 => 4
  | F16 | BF16 | I16 | U16 => 2
  | I8 | F8_E4M3 | F8_E5M2 | BOOL | U8 => 1
  end.

(** every key of DTYPE_MAPPING, in its order: streaming.py:369-388 *)
Definition all_dtypes : list dtype :=
  [F64; I64; F32; I32; F16; BF16; I16; I8; F8_E4M3; F8_E5M2; BOOL; U64; U32; U16; U8].

(** [DTYPE_MAPPING[name]] *)
Definition dtype_of_name (s : string) : option dtype :=
  find (fun d => String.eqb (dtype_name d) s) all_dtypes.

(** A tensor as stored: dtype, shape and its bytes in row-major order.
    [tensor_to_bytes] (streaming.py:337-366) is the identity on tensors that are
    contiguous and own exactly their storage; see ModelBytes.v for the others. *)
Record tensor := Tensor { t_dtype : dtype; t_shape : list N; t_bytes : list byte }.

(** streaming.py:52-56 TensorMetadata.numel *)
Definition numel (shape : list N) : N := fold_right N.mul 1%N shape.

(** streaming.py:43-56 TensorMetadata.get_byte_size *)
Definition byte_size (d : dtype) (shape : list N) : N := (numel shape * N.of_nat (dtype_size d))%N.

(** a torch tensor has as many bytes as its dtype and shape say (torch, not code of /repo): streaming.py:43-44 *)
Definition wf_tensor (t : tensor) : Prop :=
  N.of_nat (length (t_bytes t)) = byte_size (t_dtype t) (t_shape t).

(** ** Raw files *)

(** POSIX write at [pos]; a gap before [pos] is filled with zeros *)
Definition fwrite (f : list byte) (pos : nat) (d : list byte) : list byte :=
  match d with
  | [] => f
  | _ => firstn pos (f ++ zeros (pos - length f)) ++ d ++ skipn (pos + length d) f
  end.

(** [file.read(n)] and [readinto] at [pos] of a file opened with buffering=0, which give at most [cap] bytes: streaming.py:83, 131-133, 149 *)
Definition fread (cap : nat) (f : list byte) (pos n : nat) : list byte :=
  firstn (Nat.min n cap) (skipn pos f).

(** ftruncate *)
Definition ftruncate (f : list byte) (n : nat) : list byte := firstn n (f ++ zeros (n - length f)).

(** [struct.pack('<Q', n)] and [struct.unpack('<Q', b)] *)
Fixpoint le_bytes (k : nat) (n : N) : list byte :=
  match k with
  | O => []
  | S k' => ascii_of_N (n mod 256) :: le_bytes k' (n / 256)
  end.

(** [struct.pack('<Q', n)]: streaming.py:329 *)
Definition pack_Q (n : N) : result (list byte) :=
  if (n <? 2 ^ 64)%N then Ok (le_bytes 8 n) else Err StructError.

(** the number with little-endian bytes [b] *)
Fixpoint le_value (b : list byte) : N :=
  match b with
  | [] => 0%N
  | c :: b' => (N_of_ascii c + 256 * le_value b')%N
  end.

(** [struct.unpack('<Q', b)]: streaming.py:132 *)
Definition unpack_Q (b : list byte) : result N :=
  if length b =? 8 then Ok (le_value b) else Err StructError.

(** ** Writing: OutSafetensorsDict *)

(** value of a header entry (streaming.py:37-41 and 229-233) *)
Definition entry_json (d : dtype) (shape : list N) (start stop : nat) : json :=
  JObj [ ("dtype"%string, JStr (dtype_name d));
         ("shape"%string, JArr (map JNum shape));
         ("data_offsets"%string, JArr [JNum (N.of_nat start); JNum (N.of_nat stop)]) ].

(** A pending entry of [sub_header] *)
Record entry := Entry { e_dtype : dtype; e_shape : list N; e_start : nat; e_stop : nat }.

(** where a thread is inside [__setitem__] *)
Inductive pc : Type :=
| Idle
| AtFlush (k : string) (t : tensor)                (* about to take the lock *)
| AtPublish (k : string) (t : tensor) (off : nat)  (* lock released, header not yet updated *)
| AtStore (k : string) (t : tensor).               (* about to copy into the buffer *)

(** streaming.py:179-183 OutSafetensorsDictThreadState, plus the program counter *)
Record tstate := TS {
  ts_buf : list byte;
  ts_used : nat;
  ts_sub : list (string * entry);
  ts_pc : pc }.

(** streaming.py:187-205; [o_writes] is a ghost log of the raw writes *)
Record ost := OST {
  o_file : list byte;
  o_pos : nat;
  o_flushed : nat;
  o_hdr : list (string * json);
  o_thr : list (nat * tstate);
  o_min : nat;
  o_max : nat;
  o_writes : list (nat * list byte) }.

(** streaming.py:238-257 _init_buffer.  Python's [sorted(..., reverse=True)] is
    stable: insertion sort on decreasing byte size. *)
Definition decl := (string * (dtype * list N))%type.
Definition decl_size (x : decl) : N := byte_size (fst (snd x)) (snd (snd x)).

(** one step of the sort of streaming.py:242-246 *)
Fixpoint insert_desc (x : decl) (l : list decl) : list decl :=
  match l with
  | [] => [x]
  | y :: l' => if (decl_size y <=? decl_size x)%N then x :: l else y :: insert_desc x l'
  end.

(** [sorted(..., reverse=True)] by size: streaming.py:242-246 *)
Definition sort_desc (l : list decl) : list decl := fold_right insert_desc [] l.

(** keep the entries with a known shape and dtype: streaming.py:239-241 *)
Fixpoint trim (l : list (string * (option dtype * option (list N)))) : list decl :=
  match l with
  | [] => []
  | (k, (Some d, Some s)) :: l' => (k, (d, s)) :: trim l'
  | _ :: l' => trim l'
  end.

(** streaming.py:197-199 *)
Definition base_header (recipe : option string) : list (string * json) :=
  [ ("__metadata__"%string,
     JObj (match recipe with Some r => [("mecha_recipe"%string, JStr r)] | None => [] end)) ].

(** streaming.py:248-252 (the field order differs from [entry_json] in the code:
    shape, dtype, data_offsets; the length of the JSON text is the same) *)
Definition dummy_entry_json (d : dtype) (shape : list N) (start stop : N) : json :=
  JObj [ ("shape"%string, JArr (map JNum shape));
         ("dtype"%string, JStr (dtype_name d));
         ("data_offsets"%string, JArr [JNum start; JNum stop]) ].

(** the header with the offsets the keys would have one after another: streaming.py:248-252 *)
Fixpoint dummy_header (off : N) (l : list decl) (h : list (string * json)) : list (string * json) :=
  match l with
  | [] => h
  | (k, (d, s)) :: l' =>
    dummy_header (off + byte_size d s)%N l'
      (dset String.eqb k (dummy_entry_json d s off (off + byte_size d s)%N) h)
  end.

(** the size [_init_buffer] returns: streaming.py:254-257 *)
Definition max_header (declared : list (string * (option dtype * option (list N)))) (recipe : option string) : nat :=
  length (json_dumps (JObj (dummy_header 0%N (sort_desc (trim declared)) (base_header recipe)))).

(** OutSafetensorsDict.__init__: streaming.py:187-205; the file is empty and the position after the space of the header *)
Definition out_open (declared : list (string * (option dtype * option (list N)))) (recipe : option string) (minbuf : nat) : ost :=
  let m := max_header declared recipe in
  OST [] (8 + m) 0 (base_header recipe) [] minbuf m [].

(** [state.buffer[a:a+n] = data] on a bytearray *)
Definition slice_assign (buf : list byte) (a : nat) (data : list byte) : list byte :=
  firstn a buf ++ data ++ skipn (a + length data) buf.

(** the lock-protected section of [_flush_buffer]: streaming.py:265-269 *)
Definition flush_locked (cap : nat) (s : ost) (ts : tstate) : ost * nat * nat :=
  let data := firstn cap (firstn (ts_used ts) (ts_buf ts)) in
  (OST (fwrite (o_file s) (o_pos s) data) (o_pos s + length data) (o_flushed s + ts_used ts)
       (o_hdr s) (o_thr s) (o_min s) (o_max s) (o_writes s ++ [(o_pos s, data)]),
   o_flushed s, 0).

(** streaming.py:278-286: entries shifted by the position of the flushed block *)
Definition shift_entry (off : nat) (ke : string * entry) : string * json :=
  (fst ke, entry_json (e_dtype (snd ke)) (e_shape (snd ke)) (e_start (snd ke) + off) (e_stop (snd ke) + off)).

(** a change of [self.thread_states[tid]]: streaming.py:214-233 *)
Definition set_thread (s : ost) (tid : nat) (ts : tstate) : ost :=
  OST (o_file s) (o_pos s) (o_flushed s) (o_hdr s) (dset Nat.eqb tid ts (o_thr s)) (o_min s) (o_max s) (o_writes s).

(** [self.header.update(...)]: streaming.py:287 *)
Definition set_hdr (s : ost) (h : list (string * json)) : ost :=
  OST (o_file s) (o_pos s) (o_flushed s) h (o_thr s) (o_min s) (o_max s) (o_writes s).

(** One atomic step.  [Call tid k t] starts [out[k] = t] in thread [tid]
    (streaming.py:212-223); [Run tid] lets thread [tid] execute its next section. *)
Inductive op : Type :=
| Call (tid : nat) (k : string) (t : tensor)
| Run (tid : nat).

(** the state of a thread that writes for the first time: streaming.py:214-215 *)
Definition new_tstate (s : ost) : tstate := TS (zeros (o_min s)) 0 [] Idle.

(** one atomic step of __setitem__, _flush_buffer and close: streaming.py:212-233, 259-290, 292-332; [None] if the step cannot be taken *)
Definition ostep (cap : nat) (s : ost) (o : op) : option ost :=
  match o with
  | Call tid k t =>
    let ts := match dget Nat.eqb tid (o_thr s) with Some ts => ts | None => new_tstate s end in
    match ts_pc ts with
    | Idle =>
      let n := length (t_bytes t) in
      let next := if length (ts_buf ts) - ts_used ts <? n then AtFlush k t else AtStore k t in
      Some (set_thread s tid (TS (ts_buf ts) (ts_used ts) (ts_sub ts) next))
    | _ => None
    end
  | Run tid =>
    match dget Nat.eqb tid (o_thr s) with
    | None => None
    | Some ts =>
      match ts_pc ts with
      | Idle => None
      | AtFlush k t =>                                   (* streaming.py:265-269 *)
        let '(s', off, used) := flush_locked cap s ts in
        Some (set_thread s' tid (TS (ts_buf ts) used (ts_sub ts) (AtPublish k t off)))
      | AtPublish k t off =>                             (* streaming.py:271-288 *)
        let req := Nat.max (o_min s) (length (t_bytes t)) in
        let buf := if length (ts_buf ts) <? req then zeros req else firstn req (ts_buf ts) in
        let s' := set_hdr s (dupdate String.eqb (o_hdr s) (map (shift_entry off) (ts_sub ts))) in
        Some (set_thread s' tid (TS buf (ts_used ts) [] (AtStore k t)))
      | AtStore k t =>                                   (* streaming.py:225-233 *)
        let n := length (t_bytes t) in
        Some (set_thread s tid
          (TS (slice_assign (ts_buf ts) (ts_used ts) (t_bytes t)) (ts_used ts + n)
              (dset String.eqb k (Entry (t_dtype t) (t_shape t) (ts_used ts) (ts_used ts + n)) (ts_sub ts))
              Idle))
      end
    end
  end.

(** the steps of all threads, in the order of the schedule *)
Fixpoint orun (cap : nat) (s : ost) (ops : list op) : option ost :=
  match ops with
  | [] => Some s
  | o :: ops' => match ostep cap s o with Some s' => orun cap s' ops' | None => None end
  end.

(** [_flush_buffer(state, close=True)]: streaming.py:259-290 *)
Definition flush_close (cap : nat) (s : ost) (tid : nat) : ost :=
  match dget Nat.eqb tid (o_thr s) with
  | None => s
  | Some ts =>
    let '(s1, off, used) := flush_locked cap s ts in
    let s2 := set_hdr s1 (dupdate String.eqb (o_hdr s1) (map (shift_entry off) (ts_sub ts))) in
    set_thread s2 tid (TS [] used [] (ts_pc ts))
  end.

(** the relocation loop: streaming.py:315-323 *)
Fixpoint relocate (fuel : nat) (f : list byte) (chunk_end lo chunk shift : nat) : list byte :=
  match fuel with
  | O => f
  | S fuel' =>
    if chunk_end <=? lo then f
    else
      let cs := Nat.max (chunk_end - chunk) lo in
      let data := firstn (chunk_end - cs) (skipn cs f) in
      relocate fuel' (fwrite f (cs + shift) data) (chunk_end - chunk) lo chunk shift
  end.

(** the raw writes of that loop, in order (a trace of [relocate]) *)
Fixpoint relocate_writes (fuel : nat) (f : list byte) (chunk_end lo chunk shift : nat) : list (nat * list byte) :=
  match fuel with
  | O => []
  | S fuel' =>
    if chunk_end <=? lo then []
    else
      let cs := Nat.max (chunk_end - chunk) lo in
      let data := firstn (chunk_end - cs) (skipn cs f) in
      (cs + shift, data) :: relocate_writes fuel' (fwrite f (cs + shift) data) (chunk_end - chunk) lo chunk shift
  end.

(** the header writes at the end of close(): streaming.py:328-331 *)
Definition header_writes (cap : nat) (size8 : list byte) (text : chars) (overhead : nat) : list (nat * list byte) :=
  [ (0, size8); (8, firstn cap text);
    (8 + Nat.min cap (length text), firstn cap (repeat " "%char overhead)) ].

(** a sequence of writes, each at its position: streaming.py:322-323, 328-331 *)
Definition apply_writes (f : list byte) (ws : list (nat * list byte)) : list byte :=
  fold_left (fun f w => fwrite f (fst w) (snd w)) ws f.

(** state just before the header is written: all buffers flushed (streaming.py:293-295) *)
Definition close_flush (cap : nat) (s : ost) : ost :=
  fold_left (flush_close cap) (map fst (o_thr s)) s.

(** close(): streaming.py:292-332; result is the final file *)
Definition out_close (cap : nat) (s0 : ost) : result (list byte) :=
  let s := close_flush cap s0 in
  let text := json_dumps (JObj (o_hdr s)) in
  let hsize := length text in
  let* size8 := pack_Q (N.of_nat (Nat.max (o_max s) hsize)) in
  if hsize <=? o_max s then
    Ok (apply_writes (o_file s) (header_writes cap size8 text (o_max s - hsize)))
  else
    let shift := hsize - o_max s in
    let lo := 8 + o_max s in
    let old_end := 8 + o_max s + o_flushed s in
    let f1 := ftruncate (o_file s) (8 + hsize + o_flushed s) in
    if o_min s =? 0 then Err ValueError      (* range() arg 3 must not be zero *)
    else
      let f2 := relocate (S (o_flushed s)) f1 old_end lo (o_min s) shift in
      Ok (apply_writes f2 (header_writes (8 + hsize) size8 text 0)).

(** ** Reading: InSafetensorsDict *)

(** [item[1].get('data_offsets', [0])[0]]: streaming.py:137 *)
Definition sort_key (v : json) : result N :=
  match v with
  | JObj fields =>
    match dget String.eqb "data_offsets"%string fields with
    | None => Ok 0%N
    | Some (JArr (JNum n :: _)) => Ok n
    | Some (JArr []) => Err IndexError
    | Some _ => Err TypeError
    end
  | _ => Err AttributeError
  end.

(** one step of the sort of streaming.py:137 *)
Fixpoint insert_asc (n : N) (x : string * json) (l : list (N * (string * json))) : list (N * (string * json)) :=
  match l with
  | [] => [(n, x)]
  | (m, y) :: l' => if (n <=? m)%N then (n, x) :: l else (m, y) :: insert_asc n x l'
  end.

(** [OrderedDict(sorted(header.items(), key=...))]; stable *)
Definition sort_header (h : list (string * json)) : result (list (string * json)) :=
  let* keyed := mapM (fun kv => let* n := sort_key (snd kv) in Ok (n, kv)) h in
  Ok (map snd (fold_right (fun nk acc => insert_asc (fst nk) (snd nk) acc) [] keyed)).

(** [bytes.decode('utf-8')]: only ASCII content is modelled *)
Definition decode_utf8 (b : list byte) : result chars :=
  if forallb (fun c => (N_of_ascii c <? 128)%N) b then Ok b else Err Unmodelled.

(** streaming.py:130-138 *)
Definition read_header (cap : nat) (f : list byte) : result (nat * list (string * json)) :=
  let* n := unpack_Q (fread cap f 0 8) in
  let hsize := N.to_nat n in
  let* text := decode_utf8 (fread cap f 8 hsize) in
  let* j := json_loads (strip text) in
  match j with
  | JObj h => let* h' := sort_header h in Ok (hsize, h')
  | _ => Err AttributeError
  end.

(** streaming.py:77-88; the buffers the object has ever allocated are a heap
    (older ones stay alive through the tensors that view them) *)
Record ins := INS {
  in_file : list byte;
  in_bufsize : nat;
  in_hsize : nat;
  in_header : list (string * json);
  in_heap : list (list byte);
  in_cur : nat;
  in_start : nat }.

(** InSafetensorsDict.__init__: streaming.py:78-88; the suffix of the path is checked in ModelPaths *)
Definition in_open (cap : nat) (f : list byte) (bufsize : nat) : result ins :=
  let* p := read_header cap f in
  Ok (INS f bufsize (fst p) (snd p) [[]] 0 (8 + fst p)).

(** what a read hands out: a view of a buffer of the heap (torch.frombuffer
    shares memory), or an empty tensor of its own *)
Inductive view : Type :=
| VEmpty (d : dtype) (shape : list N)
| VBuf (d : dtype) (shape : list N) (buf off nbytes : nat).

(** the dtype of what is handed out: streaming.py:155, 159, 167 *)
Definition view_dtype (v : view) : dtype := match v with VEmpty d _ => d | VBuf d _ _ _ _ => d end.
(** the shape of what is handed out: streaming.py:156, 159, 167 *)
Definition view_shape (v : view) : list N := match v with VEmpty _ s => s | VBuf _ s _ _ _ => s end.
(** the bytes a view shows at the moment: streaming.py:167 *)
Definition view_bytes (heap : list (list byte)) (v : view) : list byte :=
  match v with
  | VEmpty _ _ => []
  | VBuf _ _ b off n => firstn n (skipn off (nth b heap []))
  end.

(** the tensor a view currently denotes *)
Definition view_tensor (heap : list (list byte)) (v : view) : tensor :=
  Tensor (view_dtype v) (view_shape v) (view_bytes heap v).

(** [self.buffer]: streaming.py:86, 145-147 *)
Definition cur_buf (s : ins) : list byte := nth (in_cur s) (in_heap s) [].

(** [file.readinto(buffer)] overwrites a prefix of the buffer *)
Definition readinto (cap : nat) (f : list byte) (pos : nat) (buf : list byte) : list byte :=
  let d := fread cap f pos (length buf) in d ++ skipn (length d) buf.

(** streaming.py:140-150 _ensure_buffer: both branches build a new bytearray *)
Definition ensure_buffer (cap : nat) (s : ins) (start len : nat) : ins :=
  if (start <? in_start s) || (in_start s + length (cur_buf s) <? start + len) then
    let need := Nat.max (in_bufsize s) len in
    let buf := if length (cur_buf s) <? need then zeros need else firstn need (cur_buf s) in
    INS (in_file s) (in_bufsize s) (in_hsize s) (in_header s)
        (in_heap s ++ [readinto cap (in_file s) start buf]) (length (in_heap s)) start
  else s.

(** the numbers of a shape or of offsets in the header: streaming.py:154-157 *)
Fixpoint get_nums (l : list json) : result (list N) :=
  match l with
  | [] => Ok []
  | JNum n :: l' => let* ns := get_nums l' in Ok (n :: ns)
  | _ => Err TypeError
  end.

(** fields of a header entry, as [_load_tensor] reads them: streaming.py:153-157 *)
Definition entry_info (v : json) : result (dtype * list N * N * N) :=
  match v with
  | JObj fields =>
    match dget String.eqb "data_offsets"%string fields with
    | Some (JArr (JNum a :: JNum b :: _)) =>
      match dget String.eqb "dtype"%string fields with
      | Some (JStr dn) =>
        match dtype_of_name dn with
        | Some d =>
          match dget String.eqb "shape"%string fields with
          | Some (JArr l) => let* sh := get_nums l in Ok (d, sh, a, b)
          | Some _ => Err TypeError
          | None => Err KeyError
          end
        | None => Err KeyError
        end
      | Some _ => Err KeyError
      | None => Err KeyError
      end
    | Some (JArr _) => Err IndexError
    | Some _ => Err TypeError
    | None => Err KeyError
    end
  | _ => Err TypeError
  end.

(** __getitem__ and _load_tensor: streaming.py:93-96, 152-167.
    Offsets in the wrong order are not modelled. *)
Definition in_get (cap : nat) (s : ins) (key : string) : result view * ins :=
  match dget String.eqb key (in_header s) with
  | None => (Err (StateDictKeyError key), s)
  | Some v =>
    if String.eqb key "__metadata__" then (Err (StateDictKeyError key), s) else
    match entry_info v with
    | Err e => (Err e, s)
    | Ok (d, sh, a, b) =>
      if (b <? a)%N then (Err Unmodelled, s) else
      let total := N.to_nat (b - a) in
      if total =? 0 then
        if (numel sh =? 0)%N then (Ok (VEmpty d sh), s) else (Err RuntimeError, s)
      else
        let start := 8 + in_hsize s + N.to_nat a in
        let s' := ensure_buffer cap s start total in
        let off := start - in_start s' in
        let count := total / dtype_size d in
        if count =? 0 then (Err ValueError, s')
        else if (numel sh =? N.of_nat count)%N
        then (Ok (VBuf d sh (in_cur s') off (count * dtype_size d)), s')
        else (Err RuntimeError, s')
    end
  end.

(** streaming.py:111-116, 101-102 *)
Definition in_keys (s : ins) : list string :=
  filter (fun k => negb (String.eqb k "__metadata__")) (map fst (in_header s)).
Definition in_len (s : ins) : nat :=
  length (in_header s) - (if dmem String.eqb "__metadata__"%string (in_header s) then 1 else 0).

(** in-place modification of a tensor that was handed out *)
Definition poke (heap : list (list byte)) (v : view) (i : nat) (x : byte) : list (list byte) :=
  match v with
  | VEmpty _ _ => heap
  | VBuf _ _ b off n =>
    if i <? n then
      firstn b heap ++ (slice_assign (nth b heap []) (off + i) [x]) :: skipn (S b) heap
    else heap
  end.
