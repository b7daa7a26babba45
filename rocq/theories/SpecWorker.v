(** * SpecWorker: what the events of a worker must look like (C58 to C63) *)
From Coq Require Import List String ZArith Bool.
From Verif Require Import Base Types Prog JobThreadModel.
Import ListNotations.
Open Scope Z_scope.

(** What an observer of the worker sees; an operation that raised is [VFail]. *)
Inductive jview : Type :=
| VCurrent (t : option task) | VNames (l : list string) | VStatus (s : sans) | VClock (z : Z)
| VSend (t : task) (b : bans) | VData (d : dans) | VStop (d : dans) | VStore (d : list nat)
| VReset (b : bans) | VCrash | VFail.
Definition view (e : jev) : jview :=
  match e with
  | Ev o r =>
      match o as o' return res (jresp o') -> jview with
      | JCurrent t => fun r => match r with Ok _ => VCurrent t | Err _ => VFail end
      | JNames => fun r => match r with Ok l => VNames l | Err _ => VFail end
      | JStatus => fun r => match r with Ok s => VStatus s | Err _ => VFail end
      | JClock => fun r => match r with Ok z => VClock z | Err _ => VFail end
      | JSend t => fun r => match r with Ok b => VSend t b | Err _ => VFail end
      | JData => fun r => match r with Ok d => VData d | Err _ => VFail end
      | JStop => fun r => match r with Ok d => VStop d | Err _ => VFail end
      | JStore d => fun r => match r with Ok _ => VStore d | Err _ => VFail end
      | JReset => fun r => match r with Ok b => VReset b | Err _ => VFail end
      | JCrash => fun r => match r with Ok _ => VCrash | Err _ => VFail end
      end r
  end.
Definition views (l : list jev) : list jview := map view l.

(** The tasks sent, in order. *)
Fixpoint sends (l : list jview) : list task :=
  match l with [] => [] | VSend t _ :: r => t :: sends r | _ :: r => sends r end.

(** The data received and stored, in order. *)
Fixpoint received (l : list jview) : list nat :=
  match l with
  | [] => []
  | VData (DData d) :: r | VStop (DData d) :: r => d ++ received r
  | _ :: r => received r
  end.
Fixpoint stored (l : list jview) : list nat :=
  match l with [] => [] | VStore d :: r => d ++ stored r | _ :: r => stored r end.

(** A status that shows the task running; an event that shows that it is over: it does
    not run any more, another task runs, it was stopped, or the status was refused. *)
Definition shows_running (v : jview) : Prop :=
  match v with VStatus (SState _ true (Some true)) | VStatus (SState _ true None) => True | _ => False end.
Definition shows_end (v : jview) : Prop :=
  match v with
  | VStatus (SState _ false _) | VStatus (SState _ true (Some false)) => True
  | VStop d => d <> DOffline
  | _ => False
  end.
Definition shows_refusal (v : jview) : Prop := v = VStatus SRefused.
(** In [past] (latest event first) the task was seen running, and later over. *)
Definition seen_over (over : jview -> Prop) (past : list jview) : Prop :=
  exists a e b s c, past = a ++ e :: b ++ s :: c /\ over e /\ shows_running s.

(** A task may be sent: [past] are the events since the previous one was sent (latest
    first), [first] whether there is none.  The component has just said that it accepts
    tasks, the name waited for was announced, and the previous task was seen to end before
    the worker turned to this one. *)
Definition may_send (over : jview -> Prop) (first : bool) (past : list jview) (t : task) : Prop :=
  (exists z r c rest, past = VClock z :: VStatus (SState true r c) :: rest)
  /\ (forall n, t_start_with t = Some n -> exists l, In (VNames l) past /\ In n l)
  /\ (first = false -> exists a c, past = (a ++ VCurrent (Some t) :: c)%list /\ seen_over over c).
Fixpoint sends_ok (over : jview -> Prop) (first : bool) (past l : list jview) : Prop :=
  match l with
  | [] => True
  | VSend t b :: r => may_send over first past t /\ sends_ok over false [] r
  | e :: r => sends_ok over first (e :: past) r
  end.

(** The answer says that the component is offline. *)
Definition offline (v : jview) : bool :=
  match v with
  | VStatus SOffline | VSend _ BOffline | VReset BOffline | VData DOffline | VStop DOffline => true
  | _ => false
  end.
(** An offline answer is the last thing but the crash flag. *)
Fixpoint gives_up (l : list jview) : Prop :=
  match l with
  | [] => True
  | e :: r => if offline e then r = [] \/ r = [VCrash] \/ r = [VFail] else gives_up r
  end.

(** While a submitted task is not seen running, every clock reading but the last of the
    polls is at most ten seconds after the submission.  [t0]: the time of submission. *)
Fixpoint waits (t0 : option Z) (last : option Z) (l : list jview) : Prop :=
  match l with
  | [] => True
  | VClock z :: r => waits t0 (Some z) r
  | VSend _ (BAnswer _) :: r => waits last None r
  | VStatus s :: r =>
      match t0, last with
      | Some t, Some z =>
          match s with
          | SState _ true (Some true) | SState _ true None => waits None last r
          | SOffline => waits None last r
          | _ => if MAX_TASK_WAIT <? z - t
                 then r = [] \/ r = [VCrash] \/ r = [VFail]
                 else waits t0 None r
          end
      | _, _ => waits t0 last r
      end
  | _ :: r => waits t0 last r
  end.

(** Tasks of a role, in method order. *)
Definition tasks_of (role : string) (method : list task) : list task :=
  filter (fun t => String.eqb (t_role t) role) method.

(** The distribution ends with an exception at the first role whose component, device,
    driver or driver record is missing: AssertionError if it is the record, KeyError for the
    others.  (A role without tasks needs its component only.) *)
Definition lacks (df : devicefile) (drvs : dict drvstate) (method : list task) (role cname : string) (e : exn) : Prop :=
  match dget (df_components df) cname with
  | None => e = KeyError
  | Some c =>
      tasks_of role method <> [] /\
      match dget (df_devices df) (c_device c), dget drvs (c_driver c) with
      | None, _ => e = KeyError
      | Some _, None => e = AssertionError
      | Some _, Some _ => dget (df_drivers df) (c_driver c) = None /\ e = KeyError
      end
  end.
