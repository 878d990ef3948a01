(** C integer semantics used by all models.

    Conventions (see DESIGN.md): values of every C integer type are [Z];
    unsigned results wrap, signed results are checked and an overflow is the
    distinct outcome [Err EOverflow].  /repo/src/BKBase.h lines 58-77 define
    the integer types ([BKInt] int32, [BKUInt] uint32, [BKFrame] int16,
    [BKFInt20]/[BKFUInt20] 12.20 fixed point). *)
From Coq Require Export ZArith List Bool Lia.
Export ListNotations.
Open Scope Z_scope.

(** Reasons for which a C execution has no defined result. *)
Inductive err : Type :=
| EOverflow   (* signed integer overflow: undefined behaviour *)
| EBounds     (* access outside of an object: undefined behaviour *)
| EDiv0       (* division by zero: undefined behaviour *)
| ENull       (* null (or uninitialised) pointer dereference *)
| EFreed      (* use of, or double release of, memory that was released *)
| EFuel.      (* the loop did not end within the given number of iterations *)

Inductive res (A : Type) : Type :=
| Ok (a : A)
| Err (e : err).
Arguments Ok {A} a.
Arguments Err {A} e.

Definition bind {A B} (r : res A) (f : A -> res B) : res B :=
  match r with
  | Ok a => f a
  | Err e => Err e
  end.

Notation "'let*' x ':=' r 'in' k" := (bind r (fun x => k))
  (at level 200, x pattern, r at level 100, k at level 200, right associativity).

(** Wrap-around of unsigned 32-bit arithmetic ([BKUInt], [BKFUInt20]). *)
Definition u32 (z : Z) : Z := z mod 4294967296.
(** Conversion to [int32_t] (two's complement). *)
Definition s32 (z : Z) : Z := (z + 2147483648) mod 4294967296 - 2147483648.
(** Conversion to [int16_t] ([BKFrame]). *)
Definition s16 (z : Z) : Z := (z + 32768) mod 65536 - 32768.
(** Conversion to [uint16_t]. *)
Definition u16 (z : Z) : Z := z mod 65536.
(** Conversion to [uint8_t]. *)
Definition u8 (z : Z) : Z := z mod 256.
(** Conversion to [int8_t]. *)
Definition s8 (z : Z) : Z := (z + 128) mod 256 - 128.

Definition in_s32 (z : Z) : bool := (-2147483648 <=? z) && (z <=? 2147483647).
Definition in_u32 (z : Z) : bool := (0 <=? z) && (z <=? 4294967295).
Definition in_s16 (z : Z) : bool := (-32768 <=? z) && (z <=? 32767).
Definition in_s64 (z : Z) : bool :=
  (-9223372036854775808 <=? z) && (z <=? 9223372036854775807).

(** Result of a signed 32-bit operation: undefined when not representable. *)
Definition chk32 (z : Z) : res Z := if in_s32 z then Ok z else Err EOverflow.
(** Result of a signed 64-bit operation. *)
Definition chk64 (z : Z) : res Z := if in_s64 z then Ok z else Err EOverflow.

(** Macros of BKBase.h lines 136-139. *)
Definition BKMin (a b : Z) : Z := if a <? b then a else b.
Definition BKMax (a b : Z) : Z := if a >? b then a else b.
Definition BKClamp (a l h : Z) : Z := if a <? l then l else if a >? h then h else a.
(** [BKAbs] on [int]; [BKAbs (INT_MIN)] overflows, callers check. *)
Definition BKAbs (a : Z) : Z := if a <? 0 then - a else a.

(** BKBase.h lines 63, 72-74, 85-103. *)
Definition BK_FINT20_SHIFT : Z := 20.
Definition BK_FINT20_UNIT : Z := 1048576.
Definition BK_FINT20_FRAC : Z := 1048575.
Definition BK_MAX_VOLUME : Z := 32767.
Definition BK_VOLUME_SHIFT : Z := 15.
Definition BK_FRAME_MAX : Z := 32767.
Definition BK_INT_MAX : Z := 2147483647.
Definition BK_MAX_GENERATE_SAMPLES : Z := 1024.

(** Array access with bounds check. *)
Definition aget {A} (l : list A) (i : Z) : res A :=
  if (0 <=? i) && (i <? Z.of_nat (length l))
  then match nth_error l (Z.to_nat i) with
       | Some a => Ok a
       | None => Err EBounds
       end
  else Err EBounds.

Fixpoint upd {A} (l : list A) (n : nat) (a : A) : list A :=
  match l, n with
  | [], _ => []
  | _ :: t, O => a :: t
  | h :: t, S n => h :: upd t n a
  end.

Definition aset {A} (l : list A) (i : Z) (a : A) : res (list A) :=
  if (0 <=? i) && (i <? Z.of_nat (length l))
  then Ok (upd l (Z.to_nat i) a)
  else Err EBounds.

(** Return codes, BKBase.h lines 357-374 ([BK_RETURN_TYPE] is [-7 << 12]). *)
Definition BK_RETURN_TYPE : Z := -28672.
Definition BK_ALLOCATION_ERROR : Z := -28671.
Definition BK_INVALID_ATTRIBUTE : Z := -28670.
Definition BK_INVALID_VALUE : Z := -28669.
Definition BK_INVALID_STATE : Z := -28668.
Definition BK_INVALID_NUM_CHANNELS : Z := -28667.
Definition BK_INVALID_NUM_FRAMES : Z := -28666.
Definition BK_INVALID_NUM_BITS : Z := -28665.
Definition BK_INVALID_RETURN_VALUE : Z := -28664.
Definition BK_FILE_ERROR : Z := -28663.
Definition BK_FILE_NOT_READABLE_ERROR : Z := -28662.
Definition BK_FILE_NOT_WRITABLE_ERROR : Z := -28661.
Definition BK_FILE_NOT_SEEKABLE_ERROR : Z := -28660.
Definition BK_OTHER_ERROR : Z := -28659.
