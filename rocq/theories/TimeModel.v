(** Model of /repo/src/BKTime.h: both variants of [BKTime].
    [BKTimeFromSeconds] (BKContext.h) uses floating point and is not modelled. *)
From Verif Require Import CInt.

(** ** Variant for 64-bit systems: [BKTime] is [int64_t] (BKTime.h lines 36-112) *)

(** [BK_TIME_MAX] line 37. *)
Definition BK_TIME_MAX : Z := 9223372036854775807.

(** Lines 39-42.  The shift is done in [int]; the sum of an [int] and an
    [uint32_t] is an [uint32_t], only then widened to 64 bits. *)
Definition BKTimeMake (samples frac : Z) : res Z :=
  let* s := chk32 (samples * 2 ^ 20) in Ok (u32 (s + frac)).
(** Lines 44-47. *)
Definition BKTimeGetTime (a : Z) : Z := s32 (Z.shiftr a 20).
(** Lines 49-52. *)
Definition BKTimeGetFrac (a : Z) : Z := u32 (Z.land a BK_FINT20_FRAC).
(** Lines 54-57. *)
Definition BKTimeGetFUInt20 (a : Z) : Z := u32 a.
(** Lines 59-77. *)
Definition BKTimeAdd (a b : Z) : res Z := chk64 (a + b).
Definition BKTimeAddFUInt20 (a b : Z) : res Z := chk64 (a + b).
Definition BKTimeSub (a b : Z) : res Z := chk64 (a - b).
Definition BKTimeSubFUInt20 (a b : Z) : res Z := chk64 (a - b).
(** Lines 79-112. *)
Definition BKTimeIsEqual (a b : Z) : bool := a =? b.
Definition BKTimeIsGreater (a b : Z) : bool := a >? b.
Definition BKTimeIsGreaterFUInt20 (a b : Z) : bool := a >? s32 b.   (* casts to [BKInt] *)
Definition BKTimeIsGreaterEqual (a b : Z) : bool := a >=? b.
Definition BKTimeIsLess (a b : Z) : bool := a <? b.
Definition BKTimeIsLessFUInt20 (a b : Z) : bool := a <? b.
Definition BKTimeIsLessEqual (a b : Z) : bool := a <=? b.

(** ** Variant for 32-bit systems: a structure (BKBase.h lines 183-188,
    BKTime.h lines 116-231) *)
Record time32 := mk_time32 { t_time : Z; t_frac : Z }.

(** Lines 119-127: [samples + (frac >> 20)] is unsigned, stored to [BKInt]. *)
Definition BKTimeMake32 (samples frac : Z) : time32 :=
  mk_time32 (s32 (samples + Z.shiftr frac 20)) (Z.land frac BK_FINT20_FRAC).
(** Lines 129-142. *)
Definition BKTimeGetTime32 (a : time32) : Z := t_time a.
Definition BKTimeGetFrac32 (a : time32) : Z := t_frac a.
Definition BKTimeGetFUInt20_32 (a : time32) : res Z :=
  let* s := chk32 (t_time a * 2 ^ 20) in Ok (u32 (s + t_frac a)).
(** Lines 144-155. *)
Definition BKTimeAdd32 (a b : time32) : res time32 :=
  let frac := u32 (t_frac a + t_frac b) in
  let* s := chk32 (t_time a + t_time b) in
  Ok (mk_time32 (s32 (s + Z.shiftr frac 20)) (Z.land frac BK_FINT20_FRAC)).
(** Lines 157-167. *)
Definition BKTimeAddFUInt20_32 (a : time32) (b : Z) : time32 :=
  let frac := u32 (t_frac a + b) in
  mk_time32 (s32 (t_time a + Z.shiftr frac 20)) (Z.land frac BK_FINT20_FRAC).
(** Lines 169-180: signed additions. *)
Definition BKTimeSub32 (a b : time32) : res time32 :=
  let frac := u32 (t_frac a - t_frac b) in
  let* d := chk32 (t_time a - t_time b) in
  let* d := chk32 (d + Z.shiftr (s32 frac) 20) in
  Ok (mk_time32 d (Z.land frac BK_FINT20_FRAC)).
(** Lines 182-192. *)
Definition BKTimeSubFUInt20_32 (a : time32) (b : Z) : res time32 :=
  let frac := u32 (t_frac a - b) in
  let* d := chk32 (t_time a + Z.shiftr (s32 frac) 20) in
  Ok (mk_time32 d (Z.land frac BK_FINT20_FRAC)).
(** Lines 194-231. *)
Definition BKTimeIsEqual32 (a b : time32) : bool := (t_time a =? t_time b) && (t_frac a =? t_frac b).
Definition BKTimeIsGreater32 (a b : time32) : bool :=
  (t_time a >? t_time b) || ((t_time a =? t_time b) && (t_frac a >? t_frac b)).
Definition BKTimeIsGreaterFUInt20_32 (a : time32) (b : Z) : bool :=
  BKTimeIsGreater32 a (mk_time32 (s32 (Z.shiftr b 20)) (Z.land b BK_FINT20_FRAC)).
Definition BKTimeIsGreaterEqual32 (a b : time32) : bool :=
  (t_time a >? t_time b) || ((t_time a =? t_time b) && (t_frac a >=? t_frac b)).
Definition BKTimeIsLess32 (a b : time32) : bool :=
  (t_time a <? t_time b) || ((t_time a =? t_time b) && (t_frac a <? t_frac b)).
Definition BKTimeIsLessFUInt20_32 (a : time32) (b : Z) : bool :=
  BKTimeIsLess32 a (mk_time32 (s32 (Z.shiftr b 20)) (Z.land b BK_FINT20_FRAC)).
Definition BKTimeIsLessEqual32 (a b : time32) : bool :=
  (t_time a <? t_time b) || ((t_time a =? t_time b) && (t_frac a <=? t_frac b)).
