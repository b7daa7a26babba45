(** * LifeModel: a driver process from its main loop to its end
    daemon/driver.py:241-324.  Definitions only. *)
From Coq Require Import List String ZArith Bool.
From Verif Require Import Base Types AttrModel IfaceModel.
Import ListNotations.
Open Scope string_scope.
Open Scope Z_scope.

(** How things stand: the loop goes on; it was left and [interface.quit] returned or raised
    (321-324); the process ended by an exception out of the loop (317-319), so that [quit] was
    not called; a turn does not end. *)
Inductive dend : Type := EndServing | EndQuit (r : res dreply) | EndDied (e : exn) | EndHung.

(** The main loop for the turns [l], and what follows when it is left; [g] is what the worker
    threads do between the last reply and [quit]. *)
Definition driver_life (h : hw) (driver : string) (p : dproc) (l : list turn_in)
    (g : key -> device -> device) : iface * list (option dreply) * dend :=
  let '(p', a, f) := dturns h driver p l in
  match f with
  | DServing => (dp_iface p', a, EndServing)
  | DLeft => let (s, r) := iface_reset no_params (worked g (dp_iface p')) in (s, a, EndQuit r)
  | DDied e => (dp_iface p', a, EndDied e)
  | DHung => (dp_iface p', a, EndHung)
  end.
