(** Model of [BKTimeFromSeconds], BKContext.h lines 207-229, and of the period of the master
    clock, BKContext.c lines 41-53.  A [double] is a pair [(m, e)] of value [m * 2 ^ e] with
    [|m| < 2 ^ 53]; operations round to the nearest, ties to even.  All exponents are possible:
    infinite numbers are not modelled.  Denormal numbers need no care in a product with an
    integer: it is a multiple of the smallest one, so it is rounded only if it is not denormal. *)
From Verif Require Import CInt TimeModel.
Open Scope Z_scope.

Definition double : Type := Z * Z.

(** The value [p * 2 ^ e] rounded to 53 bits. *)
Definition round53 (p e : Z) : double :=
  let k := Z.max 0 (Z.log2 (Z.abs p) - 52) in
  let q := p / 2 ^ k in
  let r := p mod 2 ^ k in
  let up := (2 * r >? 2 ^ k) || ((2 * r =? 2 ^ k) && Z.odd q) in
  (if up then q + 1 else q, e + k).

(** Conversion to an integer type: the fraction is cut off. *)
Definition dtrunc (d : double) : Z :=
  let (m, e) := d in if 0 <=? e then m * 2 ^ e else Z.quot m (2 ^ (- e)).

(** Product with an integer and difference to an integer. *)
Definition dmulz (z : Z) (d : double) : double := let (m, e) := d in round53 (z * m) e.
Definition dsubz (d : double) (z : Z) : double :=
  let (m, e) := d in if 0 <=? e then round53 (m * 2 ^ e - z) 0 else round53 (m - z * 2 ^ (- e)) e.

(** [BKTimeFromSeconds] for 64 bits, lines 209-212: [sampleRate * BK_FINT20_UNIT] is an integer
    which [double] represents exactly. *)
Definition BKTimeFromSeconds (sampleRate : Z) (seconds : double) : res Z :=
  let* a := chk64 (sampleRate * 1048576) in
  chk64 (dtrunc (dmulz a seconds)).

(** The same for 32 bits, lines 216-225.  A conversion to an integer type out of range is
    undefined; [frac] is unsigned. *)
Definition BKTimeFromSeconds32 (sampleRate : Z) (seconds : double) : res time32 :=
  let samples := dmulz sampleRate seconds in
  let* time := chk32 (dtrunc samples) in
  let frac := dtrunc (dmulz 1048576 (dsubz samples time)) in
  if (frac <? 0) || (frac >? 4294967295) then Err EOverflow else
  Ok (mk_time32 time frac).

(** [1.0 / BK_DEFAULT_CLOCK_RATE] (BKBase.h line 118: 240) as the compiler computes it: the
    quotient rounded to 53 bits. *)
Definition dquot (a b : Z) : double :=
  let s := 60 in
  let q := a * 2 ^ s / b in
  let r := (a * 2 ^ s) mod b in
  let up := (2 * r >? b) || ((2 * r =? b) && Z.odd q) in
  (if up then q + 1 else q, - s).
Definition default_seconds : double := dquot 1 240.
(** [clockPeriod], BKContext.c line 46. *)
Definition default_period (sampleRate : Z) : res Z := BKTimeFromSeconds sampleRate default_seconds.
Definition default_period32 (sampleRate : Z) : res time32 := BKTimeFromSeconds32 sampleRate default_seconds.
