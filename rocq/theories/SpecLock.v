(** When a single thread blocks on a lock it holds itself (C62). *)
From Verif Require Export SpecGot SpecTrace ModelLock.

(** Removes the first occurrence. *)
Fixpoint release (x : mode * sid) (h : list (mode * sid)) : list (mode * sid) :=
  match h with [] => [] | y :: h' => if decide (x = y) then h' else y :: release x h' end.
(** The locks held after some operations. *)
Definition held_step (h : list (mode * sid)) (v : lock_ev) : list (mode * sid) :=
  match v with Acq m i => (m, i) :: h | Rel m i => release (m, i) h end.
Definition held (es : list lock_ev) : list (mode * sid) := fold_left held_step es [].
(** A request conflicts with a guard on the same lock unless both are shared. *)
Definition blocks (m m' : mode) : Prop := m = Excl \/ m' = Excl.
Definition self_deadlock (es : list lock_ev) : Prop :=
  exists pre m i post m', es = pre ++ Acq m i :: post /\ (m', i) ∈ held pre /\ blocks m m'.

(** The locks an addition to the writer takes. *)
Definition event_locks (w : writer) (v : event) : list lock_ev :=
  match v with
  | EvSec x _ => lk_add_section w (si_name x)
  | EvSym x sr _ => lk_add_symbol (yi_sym x) sr
  | EvRel x _ sr => lk_add_relocation sr
  | EvDyn path e sym name so r => lk_add_dyn_symbol w name ++ lk_add_needed
  end.
