(** * KetchupModel: the job queue commands

    Models /repo/src/tomato/ketchup/__init__.py and the start of every command
    in /repo/src/tomato/__init__.py:32-44.  Definitions only. *)
From Coq Require Import List String ZArith Bool.
From Verif Require Import Base PyStr Types ConfigModel Prog World Replies CmdModel.
Import ListNotations.
Open Scope string_scope.
Open Scope Z_scope.
Open Scope prog_scope.

(** Every ketchup command first asks the daemon for its status and gets the
    daemon object from it (__init__.py:32-44; tomato.status lines 180-198,250-256
    of tomato/__init__.py). *)
Definition with_daemon (port : Z) (f : daemon -> pgm reply) : pgm reply :=
  d <- act ODmGet;;
  match d with
  | None => Ret (mkReply false (MNotRunning port) RNone)
  | Some d => f d
  end.

(** ** submit *)

(** Payload format versions are (major, minor); [v_gt a b] is
    [Version(a) > Version(b)].  Simplification: patch and pre-release parts. *)
Definition version : Type := (Z * Z)%type.
Definition v_gt (a b : version) : bool :=
  (Z.ltb (fst b) (fst a)) || (Z.eqb (fst a) (fst b) && Z.ltb (snd b) (snd a)).

(** [__latest_payload__] (line 34) *)
Definition latest_payload : version := (2, 2).

(** A payload object: its [version] attribute, its content, and, when the class
    has an [update] method, the object this method returns.  The classes and
    [update] methods belong to dgbowl-schemas. *)
Inductive vpayload : Type :=
| VPayload (ver : option version) (p : payload) (upd : option vpayload).

Definition vp_version (v : vpayload) : option version := let (x, _, _) := v in x.
Definition vp_payload (v : vpayload) : payload := let (_, p, _) := v in p.

(** [while hasattr(payload, "update")] loop (lines 91-96). *)
Fixpoint upgrade (v : vpayload) : vpayload :=
  match v with
  | VPayload _ _ None => v
  | VPayload _ _ (Some temp) =>
      match vp_version temp with
      | Some ver => if v_gt ver latest_payload then v else upgrade temp
      | None => upgrade temp
      end
  end.

(** What submit finds when it opens the payload file (lines 76-90): no such
    file, a file with a wrong suffix, a file that the parsers or the schema
    reject with exception [e], or a payload. *)
Inductive payload_file : Type :=
| PfMissing
| PfSuffix
| PfBad (e : exn)
| PfOk (v : vpayload).

(** Filling in paths (lines 98-105). *)
Definition fill_paths (cwd : string) (p : payload) : payload :=
  let p1 := match pl_outpath p with
            | None => mkPayload (pl_sample p) (pl_method p) (Some cwd) (pl_prefix p) (pl_repos p)
                        (pl_snapshot p) (pl_unlock p) (pl_user p) (pl_is_parent p)
            | Some _ => p
            end in
  match pl_snapshot p1 with
  | Some (mkSnap i None) =>
      mkPayload (pl_sample p1) (pl_method p1) (pl_outpath p1) (pl_prefix p1) (pl_repos p1)
        (Some (mkSnap i (Some cwd))) (pl_unlock p1) (pl_user p1) (pl_is_parent p1)
  | _ => p1
  end.

(** [repositories != ["default"]] and the loop over them (lines 106-110):
    the first unknown repository. *)
Definition unknown_repo (st : settings) (repos : list string) : option string :=
  if match repos with [r] => String.eqb r "default" | _ => false end then None
  else find (fun r => negb (String.eqb r "default") && negb (dhas (st_repos st) r)) repos.

(** [Job(id=0, payload=..., jobname=..., submitted_at=...)] (lines 114-116) *)
Definition new_job (p : payload) (name : option string) (t : Z) : job :=
  mkJob 0 p name None Sq t None None None None None None.

(** ketchup.submit (lines 37-121) *)
Definition submit (f : payload_file) (cwd : string) (name : option string) (d : daemon)
    : pgm reply :=
  match f with
  | PfMissing => Ret (mkReply false MNoPayload RNone)
  | PfSuffix => Ret (mkReply false MBadSuffix RNone)
  | PfBad e => Raise e
  | PfOk v =>
      let p := fill_paths cwd (vp_payload (upgrade v)) in
      match unknown_repo (dm_settings d) (pl_repos p) with
      | Some r => Ret (mkReply false (MUnknownRepo r) (RSettings (dm_settings d)))
      | None =>
          t <- act ONow;;
          j <- insert_job (new_job p name t);;
          Ret (mkReply true (MSubmitted (j_id j) (j_jobname j)) (RJob j))
      end
  end.

(** ** status *)

(** Groups of the message (lines 188-197): non-empty ones, in this order. *)
Definition all_statuses : list jstatus := [Sq; Sqw; Sr; Srd; Sc; Scd; Sce].
Definition status_groups (jobs : list job) : list (jstatus * list Z) :=
  filter (fun g => match snd g with [] => false | _ => true end)
    (map (fun s => (s, map j_id (filter (fun j => jstatus_eqb (j_status j) s) jobs)))
       all_statuses).

Definition status_msg (jobs : list job) : rmsg :=
  match jobs with
  | [j] => MFoundOne (j_status j)
  | _ => MFound (status_groups jobs)
  end.

(** ketchup.status (lines 124-199) *)
Definition jobs_status (ids : list Z) (d : daemon) : pgm reply :=
  match ids with
  | [] =>
      jobs <- act (OJobsWhere WAll);;
      match jobs with
      | [] => Ret (mkReply false MQueueEmpty RNone)
      | _ => Ret (mkReply true (status_msg jobs) (RJobs jobs))
      end
  | _ =>
      jobs <- act (OJobsWhere (WIds ids));;
      match jobs with
      | [] => Ret (mkReply false (match ids with [_] => MNoJob ids | _ => MNoJobs ids end) RNone)
      | _ => Ret (mkReply true (status_msg jobs) (RJobs jobs))
      end
  end.

(** ** cancel *)

(** One iteration of lines 247-255.  The state holds [params] (unbound before
    it is first assigned) and [data]; [last] is the value left in the variable
    [jobid] by the loop of lines 242-244, which is the id passed to
    [update_job_id]. *)
Definition cancel_one (last : Z) (st : option jstatus * list job) (j : job)
    : pgm (option jstatus * list job) :=
  let (params, data) := st in
  match j_status j with
  | Sc | Scd | Sce => Ret (params, data)
  | s =>
      let params' := match s with
                     | Sq | Sqw => Some Scd
                     | Sr => Some Srd
                     | _ => params
                     end in
      match params' with
      | None => Raise UnboundLocalError
      | Some x =>
          j' <- update_job_id last [JStatus x];;
          Ret (params', data ++ [j'])%list
      end
  end.

(** ketchup.cancel (lines 202-263) *)
Definition cancel (ids : list Z) (d : daemon) : pgm reply :=
  jobs <- act (OJobsWhere (WIds ids));;
  match find (fun i => negb (memZ i (map j_id jobs))) ids with
  | Some i => Ret (mkReply false (MNoSuchJob i) RNone)
  | None =>
      st <- forP (cancel_one (last ids 0)) (None, []) jobs;;
      match snd st with
      | [] => Ret (mkReply true MAllCancelled (RJobs []))
      | data => Ret (mkReply true (MCancelled (map j_id data)) (RJobs data))
      end
  end.

(** ** snapshot *)

(** merge_netcdfs up to the point where files are written (daemon/io.py:26,43);
    the content of the archive is modelled in IoModel. *)
Definition merge_netcdfs (j : job) (snapshot : bool) : pgm unit :=
  assertP (is_some (j_jobpath j));;;
  match (if snapshot then j_snappath j else j_respath j) with
  | None => Raise AssertionError
  | Some path => act (OArchive path j)
  end.

(** [f"snapshot.{jobid}.nc"] (line 304) *)
Definition snapshot_path (id : Z) : string := "snapshot." ++ str_of_Z id ++ ".nc".

Definition snapshot_one (_ : unit) (j : job) : pgm unit :=
  merge_netcdfs (set_jcol j (JSnappath (Some (snapshot_path (j_id j))))) true.

(** First loop (lines 297-301): the reply of an early return. *)
Definition snapshot_refuse (jobs : list job) (i : Z) : option reply :=
  match get_job jobs i with
  | None => Some (mkReply false (MSnapMissing i) RNone)
  | Some j => match j_status j with
              | Sq | Sqw => Some (mkReply false (MSnapQueued i) RNone)
              | _ => None
              end
  end.

Fixpoint first_some {A B : Type} (f : A -> option B) (l : list A) : option B :=
  match l with
  | [] => None
  | a :: r => match f a with Some b => Some b | None => first_some f r end
  end.

(** ketchup.snapshot (lines 266-310) *)
Definition snapshot (ids : list Z) (d : daemon) : pgm reply :=
  jobs <- act (OJobsWhere (WIds ids));;
  match first_some (snapshot_refuse jobs) ids with
  | Some r => Ret r
  | None =>
      forP snapshot_one tt jobs;;;
      Ret (mkReply true (MSnapshots ids) RNone)
  end.

(** ** search (lines 313-348) *)
Definition search (text : string) (d : daemon) : pgm reply :=
  jobs <- act (OJobsWhere (WLike text));;
  match jobs with
  | [] => Ret (mkReply false (MNoMatch text) RNone)
  | _ => Ret (mkReply true (MMatching text (map j_id jobs)) (RJobs jobs))
  end.

(** ** Complete commands as invoked from the command line *)
Definition ketchup_submit port f cwd name := with_daemon port (submit f cwd name).
Definition ketchup_status port ids := with_daemon port (jobs_status ids).
Definition ketchup_cancel port ids := with_daemon port (cancel ids).
Definition ketchup_snapshot port ids := with_daemon port (snapshot ids).
Definition ketchup_search port text := with_daemon port (search text).
