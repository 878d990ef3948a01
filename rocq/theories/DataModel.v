(** Model of BKData.c.  [BKDataReduceBits] (floating point, random numbers) is not
    modelled; the contents [BKDataConvert] produces are left open. *)
From Verif Require Import CInt.

(** BKBase.h line 85; BKTone.h lines 44-45. *)
Definition BK_MAX_CHANNELS : Z := 8.
Definition BK_MIN_SAMPLE_TONE : Z := -48.
Definition BK_MAX_SAMPLE_TONE : Z := 48.

(** ** Normalising *)

(** First loop of [BKDataNormalize], BKData.c lines 673-678. *)
Fixpoint max_abs (frames : list Z) (maxValue : Z) : Z :=
  match frames with
  | [] => maxValue
  | f :: frames => let value := BKAbs f in max_abs frames (if value >? maxValue then value else maxValue)
  end.
(** Second loop, lines 683-684. *)
Fixpoint scale_all (frames : list Z) (factor : Z) : res (list Z) :=
  match frames with
  | [] => Ok []
  | f :: frames =>
    let* p := chk32 (f * factor) in
    let* l := scale_all frames factor in
    Ok (s16 (Z.shiftr p 16) :: l)
  end.
(** [BKDataNormalize], lines 662-688, on the frames (see below for their memory). *)
Definition BKDataNormalize (frames : list Z) : res (list Z) :=
  let maxValue := max_abs frames 0 in
  if negb (maxValue =? 0) then
    let* m := chk32 (BK_MAX_VOLUME * 2 ^ 16) in
    scale_all frames (Z.quot m maxValue)
  else Ok frames.

(** ** Conversion of raw data *)

(** BKData.h lines 48-67. *)
Definition BK_BIG_ENDIAN : Z := 65536.
Definition BK_LITTLE_ENDIAN : Z := 131072.
Definition BK_ENDIAN_MASK : Z := 196608.
Definition BK_1_BIT_UNSIGNED : Z := 1.
Definition BK_2_BIT_UNSIGNED : Z := 2.
Definition BK_4_BIT_UNSIGNED : Z := 3.
Definition BK_8_BIT_SIGNED : Z := 4.
Definition BK_8_BIT_UNSIGNED : Z := 5.
Definition BK_16_BIT_SIGNED : Z := 6.
Definition BK_DATA_BITS_MASK : Z := 15.

(** [BKDataNumBitsFromParam], BKData.c lines 397-439: number of bits and sign. *)
Definition BKDataNumBitsFromParam (param : Z) : option (Z * bool) :=
  match param with
  | 1 => Some (1, false)
  | 2 => Some (2, false)
  | 3 => Some (4, false)
  | 4 => Some (8, true)
  | 5 => Some (8, false)
  | 6 => Some (16, true)
  | _ => None
  end.

(** [BKDataCalculateNumFramesFromNumBits], lines 441-458.  [dataSize * 8] is
    unsigned and converted to [BKInt]; the last product is unsigned. *)
Definition BKDataCalculateNumFramesFromNumBits (dataSize numBits numChannels : Z) : Z :=
  let dataSizeBits := s32 (u32 (dataSize * 8)) in
  let packetSize :=
    if numBits <=? 8 then s32 (u32 (numBits * numChannels))
    else s32 (u32 ((numBits + 3) / 4 * 4 * numChannels)) in
  s32 (u32 (Z.quot dataSizeBits packetSize * numChannels)).

(** A field of [w] bits at bit [sh] of a byte, scaled to the positive range, lines
    479-510: the products with [BK_FRAME_MAX] are unsigned. *)
Definition sub_frame (c w sh : Z) : Z :=
  let m := 2 ^ w - 1 in
  s16 (u32 (Z.shiftr (Z.land c (m * 2 ^ sh)) sh * BK_FRAME_MAX) / m).

(** One pass of the loop, lines 478-536: the frames written for the packet
    beginning at byte [pos]. [bigEndian] is the byte order of the machine. *)
Definition decode (bigEndian : bool) (data : list Z) (pos numBits : Z) (isSigned reverseEndian : bool) : res (list Z) :=
  let* c := aget data pos in
  match numBits with
  | 1 => Ok (map (sub_frame c 1) [7; 6; 5; 4; 3; 2; 1; 0])
  | 2 => Ok (map (sub_frame c 2) [6; 4; 2; 0])
  | 4 => Ok (map (sub_frame c 4) [4; 0])
  | 8 =>
    if isSigned then Ok [s16 (u32 (u32 (s8 c) * BK_FRAME_MAX) / 127)]
    else Ok [s16 (u32 (c * BK_FRAME_MAX) / 255)]
  | _ =>
    let* c1 := aget data (pos + 1) in
    if reverseEndian then Ok [s16 (Z.lor (Z.shiftl c 8) (Z.shiftr c1 8))]
    else Ok [s16 (if bigEndian then c * 256 + c1 else c + c1 * 256)]
  end.

(** Frames in freshly allocated memory; [None] is an indeterminate value. *)
Fixpoint store (out : list (option Z)) (o : Z) (fs : list Z) : res (list (option Z)) :=
  match fs with
  | [] => Ok out
  | f :: fs => let* out := aset out o (Some f) in store out (o + 1) fs
  end.
Fixpoint conv_loop (n : nat) (bigEndian : bool) (data : list Z) (pos step numBits : Z) (isSigned reverseEndian : bool)
         (out : list (option Z)) (o : Z) : res (list (option Z)) :=
  match n with
  | O => Ok out
  | S n =>
    let* fs := decode bigEndian data pos numBits isSigned reverseEndian in
    let* out := store out o fs in
    conv_loop n bigEndian data (pos + step) step numBits isSigned reverseEndian out (o + Z.of_nat (length fs))
  end.
(** [BKDataConvertFromBits], lines 460-540.  [mask] is the packet size in bytes. *)
Definition BKDataConvertFromBits (bigEndian : bool) (out : list (option Z)) (data : list Z) (dataSize numBits : Z)
           (isSigned reverseEndian : bool) (numChannels : Z) : res (list (option Z)) :=
  let mask := if numBits =? 16 then 2 else 1 in
  let dataSize := dataSize - dataSize mod (mask * numChannels) in
  conv_loop (Z.to_nat (dataSize / mask)) bigEndian data 0 mask numBits isSigned reverseEndian out 0.

(** What [BKDataSetData], lines 542-584, stores: the frames, [numFrames],
    [numChannels] and [numBits]; or the code of an error. *)
Record dataset : Type := mk_dataset { ds_frames : list (option Z); ds_numFrames : Z; ds_numChannels : Z; ds_numBits : Z }.
Definition BKDataSetData (bigEndian : bool) (data : list Z) (dataSize numChannels params : Z) : res (option dataset * Z) :=
  let endian := Z.land params BK_ENDIAN_MASK in
  let bits := Z.land params BK_DATA_BITS_MASK in
  if (numChannels <? 1) || (numChannels >? BK_MAX_CHANNELS) then Ok (None, BK_INVALID_NUM_CHANNELS) else
  let reverseEndian := if negb (endian =? 0) then negb (Bool.eqb bigEndian (endian =? BK_BIG_ENDIAN)) else false in
  match BKDataNumBitsFromParam bits with
  | None => Ok (None, BK_INVALID_NUM_BITS)
  | Some (numBits, isSigned) =>
    let numFrames := BKDataCalculateNumFramesFromNumBits dataSize numBits numChannels in
    if numFrames <? 0 then Ok (None, BK_INVALID_NUM_BITS) else
    let* out := BKDataConvertFromBits bigEndian (repeat None (Z.to_nat numFrames)) data dataSize numBits isSigned reverseEndian numChannels in
    Ok (Some (mk_dataset out (u32 numFrames / numChannels) numChannels numBits), 0)
  end.

(** ** Attributes *)

(** [BK_SAMPLE_PITCH], BKData.c lines 211-214 and 242-245. *)
Definition set_sample_pitch (value : Z) : Z := BKClamp value (BK_MIN_SAMPLE_TONE * 2 ^ 20) (BK_MAX_SAMPLE_TONE * 2 ^ 20).

(** [BK_SAMPLE_SUSTAIN_RANGE], lines 281-302; the same code is in
    [BKUnitUpdateSampleSustainRange], BKUnit.c lines 373-390. *)
Definition sustain_range (sampleLength offset endd : Z) : res (Z * Z) :=
  let* offset := if offset <? 0 then let* n := chk32 (sampleLength + 1) in chk32 (offset + n) else Ok offset in
  let* endd := if endd <? 0 then let* n := chk32 (sampleLength + 1) in chk32 (endd + n) else Ok endd in
  let offset := BKClamp offset 0 sampleLength in
  let endd := BKClamp endd 0 sampleLength in
  if endd <? offset then Ok (endd, offset) else Ok (offset, endd).
(** [BKDataSetPtr], lines 262-313; [None] is a [NULL] pointer. *)
Definition BKDataSetSustainRange (numFrames : Z) (values : option (Z * Z)) : res (Z * Z) :=
  let sampleLength := s32 numFrames in
  match values with
  | None => sustain_range sampleLength 0 0
  | Some (a, b) => if a =? b then sustain_range sampleLength 0 0 else sustain_range sampleLength a b
  end.

(** ** Users of a data object *)

(** [BKDataState] (BKData.h lines 98-104) and the fields of [BKData] used here.
    Pointers are [Z], 0 is [NULL].  A callback is described by its result. *)
Record dstate : Type := mk_dstate { dt_data : Z; dt_next : Z }.
Record dobj : Type := mk_dobj { do_list : Z; do_locked : bool }.
Record dheap : Type := mk_dheap { dh_state : Z -> dstate; dh_data : Z -> dobj }.
Definition fupd {A} (f : Z -> A) (p : Z) (a : A) : Z -> A := fun q => if q =? p then a else f q.
Definition dset_state (h : dheap) (p : Z) (s : dstate) : dheap := mk_dheap (fupd (dh_state h) p s) (dh_data h).
Definition dset_data (h : dheap) (p : Z) (d : dobj) : dheap := mk_dheap (dh_state h) (fupd (dh_data h) p d).
Definition dset_next (h : dheap) (p n : Z) : dheap := dset_state h p (mk_dstate (dt_data (dh_state h p)) n).
Definition dset_list (h : dheap) (d p : Z) : dheap := dset_data h d (mk_dobj p (do_locked (dh_data h d))).

(** Search of [BKDataStateAddToData], lines 48-49. *)
Fixpoint last_state (fuel : nat) (h : dheap) (p : Z) : res Z :=
  match fuel with
  | O => Err EFuel
  | S fuel =>
    if p =? 0 then Ok 0 else
    if dt_next (dh_state h p) =? 0 then Ok p else last_state fuel h (dt_next (dh_state h p))
  end.
(** [BKDataStateAddToData], lines 42-63. *)
Definition BKDataStateAddToData (fuel : nat) (h : dheap) (s d : Z) : res dheap :=
  if (dt_data (dh_state h s) =? 0) && negb (d =? 0) && negb (do_locked (dh_data h d)) then
    let* last := last_state fuel h (do_list (dh_data h d)) in
    let h := if negb (last =? 0) then dset_next h last s else dset_list h d s in
    Ok (dset_state h s (mk_dstate d 0))
  else Ok h.

(** Search of [BKDataStateRemoveFromData], lines 75-80; returns [prevState]. *)
Fixpoint prev_state (fuel : nat) (h : dheap) (s p prev : Z) : res Z :=
  match fuel with
  | O => Err EFuel
  | S fuel =>
    if p =? 0 then Ok prev else
    if p =? s then Ok prev else prev_state fuel h s (dt_next (dh_state h p)) p
  end.
(** [BKDataStateRemoveFromData], lines 68-94. *)
Definition BKDataStateRemoveFromData (fuel : nat) (h : dheap) (s : Z) : res dheap :=
  let d := dt_data (dh_state h s) in
  if negb (d =? 0) && negb (do_locked (dh_data h d)) then
    let* prev := prev_state fuel h s (do_list (dh_data h d)) 0 in
    let h :=
      if negb (prev =? 0) then dset_next h prev (dt_next (dh_state h s))
      else if do_list (dh_data h d) =? s then dset_list h d (dt_next (dh_state h s))
      else h in
    Ok (dset_state h s (mk_dstate 0 0))
  else Ok h.
(** [BKDataStateSetData], lines 690-696. *)
Definition BKDataStateSetData (fuel : nat) (h : dheap) (s d : Z) : res dheap :=
  let* h := BKDataStateRemoveFromData fuel h s in
  BKDataStateAddToData fuel h s d.

(** Loop of [BKDataResetStates], lines 108-136: [reject] tells which callbacks fail,
    [dispose] whether the event is [BK_DATA_STATE_EVENT_DISPOSE]. *)
Fixpoint reset_loop (fuel : nat) (h : dheap) (d : Z) (reject : Z -> bool) (dispose : bool) (s prev : Z) : res dheap :=
  if s =? 0 then Ok h else
  match fuel with
  | O => Err EFuel
  | S fuel =>
    let next := dt_next (dh_state h s) in
    if reject s || dispose then
      let h := if negb (prev =? 0) then dset_next h prev next else h in
      let h := if do_list (dh_data h d) =? s then dset_list h d (dt_next (dh_state h s)) else h in
      let h := dset_state h s (mk_dstate 0 0) in
      reset_loop fuel h d reject dispose next 0
    else reset_loop fuel h d reject dispose next s
  end.
(** [BKDataResetStates], lines 99-139. *)
Definition BKDataResetStates (fuel : nat) (h : dheap) (d : Z) (reject : Z -> bool) (dispose : bool) : res dheap :=
  let h := dset_data h d (mk_dobj (do_list (dh_data h d)) true) in
  let* h := reset_loop fuel h d reject dispose (do_list (dh_data h d)) 0 in
  Ok (dset_data h d (mk_dobj (do_list (dh_data h d)) false)).

(** ** Memory of the frames *)

(** Memory seen by one data object and by one attached unit playing it.  Blocks
    are numbered; a block obtained from [malloc] has a number >= 0 and is in
    [m_live] until released; the caller's own memory has negative numbers and is
    valid forever.  [m_frames] is [data -> frames] ([None] is [NULL]), [m_flag]
    the flag [BK_DATA_FLAG_COPY], [m_unit] is [unit -> sample.frames]. *)
Record dmem : Type := mk_dmem { m_live : list Z; m_next : Z; m_flag : bool; m_frames : option Z; m_unit : option Z }.

Definition mem_free (m : dmem) (p : option Z) : res dmem :=
  match p with
  | None => Ok m
  | Some p => if existsb (Z.eqb p) (m_live m)
              then Ok (mk_dmem (remove Z.eq_dec p (m_live m)) (m_next m) (m_flag m) (m_frames m) (m_unit m))
              else Err EFreed
  end.
Definition mem_alloc (m : dmem) : dmem * Z :=
  (mk_dmem (m_next m :: m_live m) (m_next m + 1) (m_flag m) (m_frames m) (m_unit m), m_next m).
(** [realloc] always moves. *)
Definition mem_realloc (m : dmem) (p : option Z) : res (dmem * Z) := let* m := mem_free m p in Ok (mem_alloc m).
Definition m_set (m : dmem) (flag : bool) (frames unit : option Z) : dmem := mk_dmem (m_live m) (m_next m) flag frames unit.
(** The unit's callback stores the new pointer (BKUnit.c lines 96 and 132); the
    unit accepts the data. *)
Definition m_notify (m : dmem) : dmem :=
  m_set m (m_flag m) (m_frames m) (match m_unit m with None => None | Some _ => m_frames m end).

Inductive mop : Type :=
| MSetFramesCopy                (* BKDataSetFrames with copy != 0 *)
| MSetFramesBorrow (p : Z)      (* BKDataSetFrames with copy = 0 and the caller's block -1 - |p| *)
| MSetData                      (* BKDataSetData, BKDataLoadRaw *)
| MLoadWAVE                     (* BKDataLoadWAVE *)
| MNormalize                    (* BKDataNormalize *)
| MConvert                      (* BKDataConvert *)
| MUse                          (* the unit gets the data object *)
| MPlay                         (* the unit reads frames *)
| MDispose.                     (* BKDispose *)

Definition mstep (m : dmem) (o : mop) : res dmem :=
  match o with
  | MSetFramesCopy =>                                   (* lines 348-380 *)
    let* (m, p) := if m_flag m then mem_realloc m (m_frames m) else Ok (mem_alloc m) in
    Ok (m_notify (m_set m true (Some p) (m_unit m)))
  | MSetFramesBorrow p =>                               (* lines 363-380 *)
    let* m := if m_flag m then mem_free m (m_frames m) else Ok m in
    Ok (m_notify (m_set m (m_flag m) (Some (-1 - Z.abs p)) (m_unit m)))
  | MSetData =>                                         (* lines 565-578 *)
    let* (m, p) := if m_flag m then mem_realloc m (m_frames m) else Ok (mem_alloc m) in
    Ok (m_set m (m_flag m) (Some p) (m_unit m))
  | MLoadWAVE =>                                        (* lines 638-655 *)
    let (m, p) := mem_alloc m in
    Ok (m_set m true (Some p) (m_unit m))
  | MNormalize =>                                       (* lines 141-160, 668 *)
    match m_frames m with
    | None => Ok m
    | Some _ =>
      if m_flag m then Ok m
      else let (m, p) := mem_alloc m in Ok (m_set m true (Some p) (m_unit m))
    end
  | MConvert =>                                         (* lines 798-812 *)
    match m_frames m with
    | None => Ok m
    | Some _ =>
      if m_flag m then Ok (m_notify m)
      else let (m, p) := mem_alloc m in Ok (m_notify (m_set m (m_flag m) (Some p) (m_unit m)))
    end
  | MUse => Ok (m_set m (m_flag m) (m_frames m) (m_frames m))
  | MPlay =>
    match m_unit m with
    | None => Ok m
    | Some p => if (p <? 0) || existsb (Z.eqb p) (m_live m) then Ok m else Err EFreed
    end
  | MDispose =>                                         (* lines 172-187; then the object is zeroed *)
    let m := m_set m (m_flag m) (m_frames m) None in
    let* m := if m_flag m then mem_free m (m_frames m) else Ok m in
    Ok (m_set m false None None)
  end.
Fixpoint mrun (m : dmem) (ops : list mop) : res dmem :=
  match ops with
  | [] => Ok m
  | o :: ops => let* m := mstep m o in mrun m ops
  end.
Definition dmem_init : dmem := mk_dmem [] 0 false None None.
