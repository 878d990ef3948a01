(** Model of BKObject.c, BKStatusGetName (BKBase.c) and the bit macros of BKBase.h. *)
From Coq Require Import String.
From Verif Require Import CInt.
Open Scope Z_scope.

(** ** Bit macros, BKBase.h lines 142-161 *)

(** [var] and [mask] are [BKUInt]; the complement of a 32-bit value. *)
Definition not32 (v : Z) : Z := u32 (- v - 1).

Definition BKBitSet (var mask : Z) : Z := Z.lor var mask.
Definition BKBitUnset (var mask : Z) : Z := Z.land var (not32 mask).
(** [var ^= (-(cond) ^ var) & mask]. *)
Definition BKBitSetCond (var mask cond : Z) : Z := Z.lxor var (Z.land (Z.lxor (u32 (- cond)) var) mask).
(** [~(cond - 1) & mask] and [~((cond != 0) - 1) & mask]. *)
Definition BKBitCond (mask cond : Z) : Z := Z.land (not32 (u32 (cond - 1))) mask.
Definition BKBitCond2 (mask cond : Z) : Z := Z.land (not32 (u32 ((if cond =? 0 then 0 else 1) - 1))) mask.
(** [mask] has no parentheses in these macros: the expansion of [BKBitCond (a | b, cond)]
    is [(~(cond - 1) & a) | b]. *)
Definition BKBitCond_of_or (a b cond : Z) : Z := Z.lor (Z.land (not32 (u32 (cond - 1))) a) b.

(** ** Names of status values *)

(** [statusNames], BKBase.c lines 28-43; the first entry is not initialised, so it is null. *)
Definition statusNames : list (option string) :=
  [ None; Some "Allocation error"; Some "Invalid argument"; Some "Invalid value"; Some "Invalid state";
    Some "Invalid number of channels"; Some "Invalid number of frames"; Some "Invalid number of bits";
    Some "Invalid return value"; Some "File error"; Some "File not readable"; Some "File not writable";
    Some "File not seekable"; Some "Other error" ]%string.

(** [BKStatusGetName], lines 47-56; [status] is unsigned, so both constants are converted to
    unsigned.  [None] is the null pointer. *)
Definition BKStatusGetName (status : Z) : res (option string) :=
  if negb (Z.land status (u32 BK_RETURN_TYPE) =? 0) && (status <=? u32 BK_OTHER_ERROR)
  then aget statusNames (u32 (status - u32 BK_RETURN_TYPE))
  else Ok (Some "Unknown status"%string).

(** ** Objects *)

(** [struct BKClass], BKObject.h lines 64-73.  [A] is the rest of an object (including its
    private flags); the functions of a class only change this part. *)
Record class (A : Type) := mk_class {
  c_size : Z;
  c_dispose : option (A -> A);
  c_setAttr : option (A -> Z -> Z -> A * Z);
  c_getAttr : option (A -> Z -> Z * Z);
  c_setPtr : option (A -> Z -> Z -> Z -> A * Z);
  c_getPtr : option (A -> Z -> Z -> Z * Z)
}.
Arguments mk_class {A}.
Arguments c_size {A}.
Arguments c_dispose {A}.
Arguments c_setAttr {A}.
Arguments c_getAttr {A}.
Arguments c_setPtr {A}.
Arguments c_getPtr {A}.

(** Memory of an object: the flags of [BKObject] (BKObject.h lines 51-58), class, the rest
    and whether the memory was given back. *)
Record object (A : Type) := mk_object { o_init : bool; o_alloc : bool; o_isa : option (class A); o_rest : A; o_freed : bool }.
Arguments mk_object {A}.
Arguments o_init {A}.
Arguments o_alloc {A}.
Arguments o_isa {A}.
Arguments o_rest {A}.
Arguments o_freed {A}.

Section Objects.
(** [zero] is the rest of an object filled with zeros. *)
Context {A : Type} (zero : A).

(** [BKObjectInit], lines 26-44.  [None] is the null pointer. *)
Definition BKObjectInit (obj : option (object A)) (isa : option (class A)) (guardSize : Z) : Z * option (object A) :=
  match obj, isa with
  | Some o, Some c =>
    if negb (c_size c =? guardSize) then (BK_ALLOCATION_ERROR, obj)
    else (0, Some (mk_object true false (Some c) zero (o_freed o)))
  | _, _ => (BK_ALLOCATION_ERROR, obj)
  end.

(** [BKObjectAlloc], lines 46-74; [malloc] does not fail and [outObject] is not null. *)
Definition BKObjectAlloc (isa : option (class A)) : Z * option (object A) :=
  match isa with
  | Some c =>
    if c_size c =? 0 then (BK_ALLOCATION_ERROR, None)
    else (0, Some (mk_object true true (Some c) zero false))
  | None => (BK_ALLOCATION_ERROR, None)
  end.

(** [obj -> isa]. *)
Definition get_isa (o : object A) : res (option (class A)) := if o_freed o then Err EFreed else Ok (o_isa o).
Definition with_rest (o : object A) (a : A) : object A := mk_object (o_init o) (o_alloc o) (o_isa o) a (o_freed o).

(** [isa -> ...] of a class which may be missing. *)
Definition deref (c : option (class A)) : res (class A) := match c with Some c => Ok c | None => Err ENull end.

(** [BKSetAttr], lines 76-92: value returned and object. *)
Definition BKSetAttr (obj : option (object A)) (attr value : Z) : res (Z * option (object A)) :=
  match obj with
  | None => Ok (BK_INVALID_STATE, obj)
  | Some o =>
    let* isa := get_isa o in
    let* c := deref isa in
    match c_setAttr c with
    | None => Ok (BK_INVALID_STATE, obj)
    | Some f => let (a, r) := f (o_rest o) attr value in Ok (r, Some (with_rest o a))
    end
  end.

(** [BKGetAttr], lines 94-111: value returned and value stored, if any. *)
Definition BKGetAttr (obj : option (object A)) (attr : Z) : res (Z * option Z) :=
  match obj with
  | None => Ok (BK_INVALID_STATE, None)
  | Some o =>
    let* isa := get_isa o in
    let* c := deref isa in
    match c_getAttr c with
    | None => Ok (BK_INVALID_STATE, None)
    | Some f => let (v, r) := f (o_rest o) attr in Ok (r, Some v)
    end
  end.

(** [BKSetPtr], lines 113-129; pointers are numbers here. *)
Definition BKSetPtr (obj : option (object A)) (attr ptr size : Z) : res (Z * option (object A)) :=
  match obj with
  | None => Ok (BK_INVALID_STATE, obj)
  | Some o =>
    let* isa := get_isa o in
    let* c := deref isa in
    match c_setPtr c with
    | None => Ok (BK_INVALID_STATE, obj)
    | Some f => let (a, r) := f (o_rest o) attr ptr size in Ok (r, Some (with_rest o a))
    end
  end.

(** [BKGetPtr], lines 131-147. *)
Definition BKGetPtr (obj : option (object A)) (attr size : Z) : res (Z * option Z) :=
  match obj with
  | None => Ok (BK_INVALID_STATE, None)
  | Some o =>
    let* isa := get_isa o in
    let* c := deref isa in
    match c_getPtr c with
    | None => Ok (BK_INVALID_STATE, None)
    | Some f => let (v, r) := f (o_rest o) attr size in Ok (r, Some v)
    end
  end.

(** [BKDispose], lines 149-180: object and the number of destructors which were run. *)
Definition BKDispose (obj : option (object A)) : res (option (object A) * nat) :=
  match obj with
  | None => Ok (obj, 0%nat)
  | Some o =>
    let* isa := get_isa o in
    match isa with
    | None => Ok (obj, 0%nat)
    | Some c =>
      if negb (o_init o) then Ok (obj, 0%nat) else
      let runs := match c_dispose c with Some _ => 1%nat | None => 0%nat end in
      Ok (Some (mk_object false false None zero (o_alloc o)), runs)
    end
  end.

(** What a client does with an object. *)
Inductive oop :=
| OInit (c : class A)
| OSetAttr (attr value : Z)
| OGetAttr (attr : Z)
| OSetPtr (attr ptr size : Z)
| OGetPtr (attr size : Z)
| ODispose.

Definition ostep (obj : option (object A)) (o : oop) : res (option (object A) * nat) :=
  match o with
  | OInit c =>
    match obj with
    | Some o => if o_freed o then Err EFreed else Ok (snd (BKObjectInit obj (Some c) (c_size c)), 0%nat)
    | None => Ok (obj, 0%nat)
    end
  | OSetAttr a v => let* (_, obj) := BKSetAttr obj a v in Ok (obj, 0%nat)
  | OGetAttr a => let* _ := BKGetAttr obj a in Ok (obj, 0%nat)
  | OSetPtr a p s => let* (_, obj) := BKSetPtr obj a p s in Ok (obj, 0%nat)
  | OGetPtr a s => let* _ := BKGetPtr obj a s in Ok (obj, 0%nat)
  | ODispose => BKDispose obj
  end.
Fixpoint oruns (obj : option (object A)) (ops : list oop) : res (option (object A) * nat) :=
  match ops with
  | [] => Ok (obj, 0%nat)
  | o :: ops =>
    let* (obj, k) := ostep obj o in
    let* (obj, n) := oruns obj ops in
    Ok (obj, (k + n)%nat)
  end.
End Objects.
Arguments oop : clear implicits.
Arguments OInit {A}.
Arguments OSetAttr {A}.
Arguments OGetAttr {A}.
Arguments OSetPtr {A}.
Arguments OGetPtr {A}.
Arguments ODispose {A}.
