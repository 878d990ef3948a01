(** Specification of clock, divider and unit lists: plain lists per owner. *)
From Verif Require Import CInt ClockModel.

Record lists := mk_lists { l_clocks : ptr -> list ptr; l_divs : gid -> list ptr; l_units : ptr -> list ptr }.

Definition put_clocks (s : lists) (x : ptr) (l : list ptr) : lists :=
  mk_lists (fun y => if y =? x then l else l_clocks s y) (l_divs s) (l_units s).
Definition put_divs (s : lists) (g : gid) (l : list ptr) : lists :=
  mk_lists (l_clocks s) (fun y => if gid_eqb y g then l else l_divs s y) (l_units s).
Definition put_units (s : lists) (x : ptr) (l : list ptr) : lists :=
  mk_lists (l_clocks s) (l_divs s) (fun y => if y =? x then l else l_units s y).

Inductive lop :=
| OAttachClock (c x before : ptr) | ODetachClock (c : ptr) | OResetClock (c : ptr)
| OAttachDiv (d : ptr) (g : gid) | ODetachDiv (d : ptr)
| OAttachUnit (u x : ptr) | ODetachUnit (u : ptr).

(** [spec_step s o s' code]: operation [o] turns the lists [s] into [s'] and
    returns [code].  No rule for attaching before a clock of another context (C19). *)
Inductive spec_step (s : lists) : lop -> lists -> Z -> Prop :=
| sp_clock_last c x : c <> 0 -> x <> 0 -> (forall y, y <> 0 -> ~ In c (l_clocks s y)) ->
    spec_step s (OAttachClock c x NULL) (put_clocks s x (l_clocks s x ++ [c])) 0
| sp_clock_first c x : c <> 0 -> x <> 0 -> (forall y, y <> 0 -> ~ In c (l_clocks s y)) ->
    spec_step s (OAttachClock c x BK_FIRST_ELEMENT_PTR) (put_clocks s x (c :: l_clocks s x)) 0
| sp_clock_before c x b l1 l2 : c <> 0 -> x <> 0 -> b <> BK_FIRST_ELEMENT_PTR ->
    (forall y, y <> 0 -> ~ In c (l_clocks s y)) -> l_clocks s x = l1 ++ b :: l2 ->
    spec_step s (OAttachClock c x b) (put_clocks s x (l1 ++ c :: b :: l2)) 0
| sp_clock_busy c x b y : y <> 0 -> In c (l_clocks s y) ->
    spec_step s (OAttachClock c x b) s BK_INVALID_STATE
| sp_clock_detach c x l1 l2 : x <> 0 -> l_clocks s x = l1 ++ c :: l2 ->
    spec_step s (ODetachClock c) (put_clocks s x (l1 ++ l2)) 0
| sp_clock_detached c : c <> 0 -> (forall y, y <> 0 -> ~ In c (l_clocks s y)) ->
    spec_step s (ODetachClock c) s 0
| sp_clock_reset c : c <> 0 -> spec_step s (OResetClock c) s 0
| sp_div_attach d g : d <> 0 -> (forall y, ~ In d (l_divs s y)) ->
    spec_step s (OAttachDiv d g) (put_divs s g (l_divs s g ++ [d])) 0
| sp_div_busy d g y : In d (l_divs s y) -> spec_step s (OAttachDiv d g) s BK_INVALID_STATE
| sp_div_detach d g l1 l2 : l_divs s g = l1 ++ d :: l2 ->
    spec_step s (ODetachDiv d) (put_divs s g (l1 ++ l2)) 0
| sp_div_detached d : d <> 0 -> (forall y, ~ In d (l_divs s y)) -> spec_step s (ODetachDiv d) s 0
| sp_unit_attach u x : u <> 0 -> x <> 0 -> (forall y, y <> 0 -> ~ In u (l_units s y)) ->
    spec_step s (OAttachUnit u x) (put_units s x (l_units s x ++ [u])) 0
| sp_unit_busy u x y : y <> 0 -> In u (l_units s y) -> spec_step s (OAttachUnit u x) s BK_INVALID_STATE
| sp_unit_detach u x l1 l2 : x <> 0 -> l_units s x = l1 ++ u :: l2 ->
    spec_step s (ODetachUnit u) (put_units s x (l1 ++ l2)) 0
| sp_unit_detached u : u <> 0 -> (forall y, y <> 0 -> ~ In u (l_units s y)) -> spec_step s (ODetachUnit u) s 0.

Inductive spec_run : lists -> list lop -> lists -> list Z -> Prop :=
| spec_nil s : spec_run s [] s []
| spec_cons s o s1 code ops s2 codes : spec_step s o s1 code -> spec_run s1 ops s2 codes ->
    spec_run s (o :: ops) s2 (code :: codes).

Definition empty_lists : lists := mk_lists (fun _ => []) (fun _ => []) (fun _ => []).

(** The same operations on the heap. *)
Definition lstep (fuel : nat) (h : heap) (o : lop) : res (heap * Z) :=
  match o with
  | OAttachClock c x b => BKClockAttach fuel h c x b
  | ODetachClock c => let* h := BKClockDetach fuel h c in Ok (h, 0)
  | OResetClock c => let* h := BKClockReset fuel h c in Ok (h, 0)
  | OAttachDiv d g => BKDividerAttachToGroup h d g
  | ODetachDiv d => Ok (BKDividerDetach h d, 0)
  | OAttachUnit u x => BKUnitAttach h u x
  | ODetachUnit u => Ok (BKUnitDetach h u, 0)
  end.
Fixpoint lrun (fuel : nat) (h : heap) (ops : list lop) : res (heap * list Z) :=
  match ops with
  | [] => Ok (h, [])
  | o :: ops => let* (h, code) := lstep fuel h o in
                let* (h, codes) := lrun fuel h ops in Ok (h, code :: codes)
  end.

(** Memory in which nothing is attached (all structures initialised). *)
Definition fresh_heap (period : ptr -> Z) (cb : ptr -> clock_cb) (dv : ptr -> Z) (delta current : Z) : heap :=
  mk_heap (fun p => mk_clock 0 0 0 (period p) 0 0 0 (cb p)) (fun p => mk_divider None 0 0 true (dv p) 0)
          (fun _ => mk_group 0 0) (fun _ => mk_unode 0 0 0 0) (fun _ => mk_cctx 0 0 0 0 false delta current).
