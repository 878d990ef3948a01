(** Failing allocations: the functions of BKData.c which allocate, and the creation of contexts and
    of writers, with the answers of [malloc] and [realloc] given from outside.
    DataObjectModel.v has the same functions for allocations which succeed. *)
From Verif Require Import CInt DataModel WaveModel DataObjectModel.

(** The answers of the allocator in order, [false] for a null pointer; after the last answer every
    allocation succeeds. *)
Definition answers := list bool.
Definition next_answer (a : answers) : bool * answers :=
  match a with [] => (true, []) | b :: a => (b, a) end.
(** [malloc]. *)
Definition try_malloc (a : answers) (h : heap) (b : list (option Z)) : answers * heap * option Z :=
  let (yes, a) := next_answer a in
  if yes then let (h, p) := malloc h b in (a, h, Some p) else (a, h, None).
(** [realloc].  The C standard leaves open what happens with a size of 0 (C11 7.22.3.5); with
    [zf] the block is freed and the result is a null pointer, as in glibc; otherwise 0 is a
    size like any other.  A failing [realloc] leaves the block as it is. *)
Definition try_realloc (zf : bool) (a : answers) (h : heap) (p : option Z) (n : nat) : res (answers * heap * option Z) :=
  match p with
  | Some _ =>
    if zf && Nat.eqb n 0 then let* h := hfree h p in Ok (a, h, None) else
    let (yes, a) := next_answer a in
    if yes then let* (h, q) := realloc h p n in Ok (a, h, Some q) else Ok (a, h, None)
  | None => Ok (try_malloc a h (repeat None n))
  end.

(** ** Data objects *)

(** [BKDataSetFrames], BKData.c lines 334-384. *)
Definition set_frames (zf : bool) (a : answers) (h : heap) (d : bkdata) (frames : option Z) (numFrames numChannels : Z) (copy : bool)
    : res (answers * heap * bkdata * Z) :=
  if numFrames <? 2 then Ok (a, h, d, BK_INVALID_NUM_FRAMES) else
  if (numChannels <? 1) || (numChannels >? BK_MAX_CHANNELS) then Ok (a, h, d, BK_INVALID_NUM_CHANNELS) else
  let size := u32 (u32 (numFrames * numChannels) * 2) in
  let n := Z.to_nat (size / 2) in
  if copy then
    let* (a, h, p) := if bd_copy d then try_realloc zf a h (bd_frames d) n else Ok (try_malloc a h (repeat None n)) in
    match p with
    | None => Ok (a, h, d, -1)
    | Some p =>
      let* h := copy_block h p frames n in
      Ok (a, h, put_frames d true 16 (bd_sampleRate d) numFrames numChannels (Some p), 0)
    end
  else
    let* h := if bd_copy d then hfree h (bd_frames d) else Ok h in
    match frames with
    | None => Ok (a, h, d, -1)
    | Some p => Ok (a, h, put_frames d (bd_copy d) 16 (bd_sampleRate d) numFrames numChannels (Some p), 0)
    end.

(** [BKDataInitCopy], lines 189-208. *)
Definition init_copy (zf : bool) (a : answers) (h : heap) (original : bkdata) : res (answers * heap * bkdata * Z) :=
  let copy := mk_bkdata false (bd_copy original) (bd_isa original) (bd_numBits original) (bd_sampleRate original) (bd_numFrames original)
                        (bd_numChannels original) (bd_pitch original) (bd_sustain original) None in
  match bd_frames original with
  | Some p => set_frames zf a h copy (Some p) (bd_numFrames original) (bd_numChannels original) true
  | None => Ok (a, h, copy, 0)
  end.

(** [BKDataSetData], lines 542-584.  [DataModel.BKDataSetData] has the checks before the allocation
    and the conversion after it, which reads only the bytes of the caller. *)
Definition set_bytes (zf : bool) (big : bool) (a : answers) (h : heap) (d : bkdata) (bytes : list Z) (dataSize numChannels params : Z)
    : res (answers * heap * bkdata * Z) :=
  let* (s, ret) := BKDataSetData big bytes dataSize numChannels params in
  match s with
  | None => Ok (a, h, d, ret)
  | Some s =>
    let n := length (ds_frames s) in
    let* (a, h, p) := if bd_copy d then try_realloc zf a h (bd_frames d) n else Ok (try_malloc a h (repeat None n)) in
    match p with
    | None => Ok (a, h, d, BK_ALLOCATION_ERROR)
    | Some p => Ok (a, hset h p (Some (ds_frames s)), put_frames d (bd_copy d) (ds_numBits s) (bd_sampleRate d) (ds_numFrames s) (ds_numChannels s) (Some p), ret)
    end
  end.

(** [BKDataLoadRaw], lines 586-622, for a seekable file.  The bytes of the file lie in a block of
    their own, one number for each, until the end.  A size below 0 is a size [malloc] rejects. *)
Definition load_raw (zf : bool) (big : bool) (a : answers) (h : heap) (d : bkdata) (f : file) (numChannels params : Z)
    : res (answers * heap * bkdata * Z * file) :=
  let offset := f_pos f in
  let f := fseek_end f in
  let size := fsize f - offset in
  if size <? 0 then Ok (a, h, d, BK_ALLOCATION_ERROR, f) else
  let '(a, h, t) := try_malloc a h (repeat None (Z.to_nat size)) in
  match t with
  | None => Ok (a, h, d, BK_ALLOCATION_ERROR, f)
  | Some t =>
    let f := fseek f offset in
    let (bytes, f) := fread f size in
    let h := hset h t (Some (map Some bytes)) in
    let* (a, h, d, ret) := set_bytes zf big a h d bytes (u32 size) numChannels params in
    let* h := hfree h (Some t) in
    Ok (a, h, d, ret, f)
  end.

(** [BKDataLoadWAVE], lines 624-660.  The reader on the stack owns nothing: its file belongs to the
    caller (BKWaveFileReader.c lines 56-75). *)
Definition load_wave (n : nat) (big : bool) (x : Z) (a : answers) (h : heap) (d : bkdata) (f : file) : res (answers * heap * bkdata * Z) :=
  match BKWaveFileReaderInit f with
  | (0, Some r) =>
    let* (r, ret, fmt) := BKWaveFileReaderReadHeader n big r in
    if ret <? 0 then Ok (a, h, d, BK_INVALID_RETURN_VALUE) else
    let '(numChannels, sampleRate, numFrames) := fmt in
    let* count := chk32 (numFrames * numChannels) in
    if count <? 0 then Ok (a, h, d, BK_ALLOCATION_ERROR) else
    let '(a, h, p) := try_malloc a h (repeat (Some x) (Z.to_nat count)) in
    match p with
    | None => Ok (a, h, d, BK_ALLOCATION_ERROR)
    | Some p =>
      let* (r, out) := BKWaveFileReaderReadFrames n big r (repeat x (Z.to_nat count)) in
      Ok (a, hset h p (Some (map Some out)), put_frames d true 16 sampleRate (u32 numFrames) (u32 numChannels) (Some p), 0)
    end
  | _ => Ok (a, h, d, BK_INVALID_RETURN_VALUE)
  end.

(** [BKDataPromoteToCopy], lines 141-160, as called by [BKDataNormalize] (line 668) for data with
    frames. *)
Definition promote (a : answers) (h : heap) (d : bkdata) : res (answers * heap * bkdata * Z) :=
  if bd_copy d then Ok (a, h, d, 0) else
  let n := Z.to_nat (u32 (bd_numFrames d * bd_numChannels d)) in
  let '(a, h, p) := try_malloc a h (repeat None n) in
  match p with
  | None => Ok (a, h, d, BK_ALLOCATION_ERROR)
  | Some p =>
    let* h := copy_block h p (bd_frames d) n in
    Ok (a, h, put_frames d true (bd_numBits d) (bd_sampleRate d) (bd_numFrames d) (bd_numChannels d) (Some p), 0)
  end.

(** [BKDataConvert], lines 778-819, with the memory: [reduce] is what [BKDataReduceBits] does with
    the frames (DataObjectModel.v).  The flag [BK_DATA_FLAG_COPY] is not set. *)
Definition convert (reduce : list (option Z) -> list (option Z)) (a : answers) (h : heap) (d : bkdata) : res (answers * heap * bkdata * Z) :=
  let n := Z.to_nat (u32 (bd_numFrames d * bd_numChannels d)) in
  let* (a, h, p) := if bd_copy d then Ok (a, h, bd_frames d) else Ok (try_malloc a h (repeat None n)) in
  match p with
  | None => if bd_copy d then Err ENull else Ok (a, h, d, -1)
  | Some p =>
    let* src := match bd_frames d with Some q => hget h q | None => Err ENull end in
    if Nat.ltb (length src) n then Err EBounds else
    let* dst := hget h p in
    Ok (a, hset h p (Some (reduce (firstn n src) ++ skipn n dst)),
        put_frames d (bd_copy d) (bd_numBits d) (bd_sampleRate d) (bd_numFrames d) (bd_numChannels d) (Some p), 0)
  end.

(** What a client does with one data object. *)
Inductive dcall :=
| DFrames (frames : option Z) (numFrames numChannels : Z) (copy : bool)   (* BKDataSetFrames *)
| DBytes (bytes : list Z) (dataSize numChannels params : Z)               (* BKDataSetData *)
| DRaw (f : file) (numChannels params : Z)                                (* BKDataLoadRaw *)
| DWave (f : file)                                                        (* BKDataLoadWAVE *)
| DPromote                                                                (* BKDataNormalize *)
| DConvert (reduce : list (option Z) -> list (option Z)).                 (* BKDataConvert *)
Definition dcalled (zf : bool) (fuel : nat) (big : bool) (x : Z) (a : answers) (h : heap) (d : bkdata) (c : dcall) : res (answers * heap * bkdata * Z) :=
  match c with
  | DFrames frames numFrames numChannels copy => set_frames zf a h d frames numFrames numChannels copy
  | DBytes bytes dataSize numChannels params => set_bytes zf big a h d bytes dataSize numChannels params
  | DRaw f numChannels params => let* (a, h, d, ret, _) := load_raw zf big a h d f numChannels params in Ok (a, h, d, ret)
  | DWave f => load_wave fuel big x a h d f
  | DPromote => promote a h d
  | DConvert reduce => convert reduce a h d
  end.

(** ** Contexts *)

(** A context as far as its memory is concerned: [None] is the null pointer. *)
Record cmem := mk_cmem { cm_init : bool; cm_alloc : bool; cm_isa : bool; cm_numChannels : Z; cm_channels : option (list bool) }.
(** [BKContextInitGeneric], BKContext.c lines 55-76: [BKBufferInit] never fails, BKBuffer.c lines
    116-124.  A channel is [true] once it is initialised.  [numChannels] is unsigned. *)
Definition init_generic (a : answers) (c : cmem) (numChannels : Z) : answers * cmem * Z :=
  let n := BKClamp numChannels 1 BK_MAX_CHANNELS in
  let (yes, a) := next_answer a in
  if yes then (a, mk_cmem (cm_init c) (cm_alloc c) (cm_isa c) n (Some (repeat true (Z.to_nat n))), 0)
  else (a, mk_cmem (cm_init c) (cm_alloc c) (cm_isa c) n None, BK_ALLOCATION_ERROR).
(** [BKContextInit], lines 78-89, after [BKObjectInit], BKObject.c lines 26-44. *)
Definition context_init (a : answers) (numChannels : Z) : answers * cmem * Z :=
  let '(a, c, ret) := init_generic a (mk_cmem true false true 0 None) numChannels in
  (a, c, if ret <? 0 then -1 else 0).
(** [BKContextAlloc], lines 91-102, with [BKObjectAlloc], BKObject.c lines 46-73: the pointer which
    the caller gets is [None] if it is null. *)
Definition context_alloc (a : answers) (numChannels : Z) : answers * option cmem * Z :=
  let (yes, a) := next_answer a in
  if yes then
    let '(a, c, ret) := init_generic a (mk_cmem true true true 0 None) numChannels in
    (a, Some c, if ret <? 0 then -1 else 0)
  else (a, None, -1).
(** [BKBufferDispose] writes to the channel, BKBuffer.c lines 126-129. *)
Fixpoint dispose_channels (n : nat) (cs : option (list bool)) : res (option (list bool)) :=
  match n with
  | O => Ok cs
  | S n =>
    let* cs := dispose_channels n cs in
    match cs with
    | None => Err ENull
    | Some l => let* _ := aget l (Z.of_nat n) in Ok (Some (upd l n false))
    end
  end.
(** [BKDispose] with [BKContextDisposeObject], BKObject.c lines 150-180 and BKContext.c lines
    104-127, for a context without units and clocks; the result is what is left: [None] if the
    memory of the object was freed. *)
Definition context_dispose (c : option cmem) : res (option cmem) :=
  match c with
  | None => Ok None
  | Some c =>
    if negb (cm_isa c) then Ok (Some c) else
    if negb (cm_init c) then Ok (Some c) else
    let* _ := dispose_channels (Z.to_nat (cm_numChannels c)) (cm_channels c) in
    Ok (if cm_alloc c then None else Some (mk_cmem false false false 0 None))
  end.
