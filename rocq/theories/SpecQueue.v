(** * SpecQueue: vocabulary for the job queue commands *)
From Coq Require Import List String Ascii ZArith Bool Sorted.
From Verif Require Import Base PyStr Types World KetchupModel Replies.
Import ListNotations.
Open Scope Z_scope.

(** The queue is stored in increasing order of distinct ids, none of which is
    larger than the largest id ever used. *)
Definition wf_queue (w : world) : Prop :=
  StronglySorted Z.lt (map j_id (w_jobs w)) /\
  Forall (fun j => 0 < j_id j <= w_seq w) (w_jobs w) /\ 0 <= w_seq w.

(** ** Payload upgrade *)

(** [steps v v']: [v'] is reached from [v] by calls of [update()], none of
    which leads past the version that is supported. *)
Definition supported (v : vpayload) : Prop :=
  forall ver, vp_version v = Some ver -> fst ver < 2 \/ (fst ver = 2 /\ snd ver <= 2).
Definition update_of (v : vpayload) : option vpayload := let (_, _, u) := v in u.
Inductive steps : vpayload -> vpayload -> Prop :=
| steps_refl v : steps v v
| steps_next v v1 v2 : update_of v = Some v1 -> supported v1 -> steps v1 v2 -> steps v v2.

(** The last supported version. *)
Definition upgraded (v v' : vpayload) : Prop :=
  steps v v' /\ (forall v'', update_of v' = Some v'' -> ~ supported v'').

(** [q] is [p] with missing locations set to [cwd]. *)
Definition located (cwd : string) (p q : payload) : Prop :=
  pl_sample q = pl_sample p /\ pl_method q = pl_method p /\ pl_prefix q = pl_prefix p /\
  pl_repos q = pl_repos p /\ pl_unlock q = pl_unlock p /\ pl_user q = pl_user p /\
  pl_is_parent q = pl_is_parent p /\
  pl_outpath q = Some (match pl_outpath p with Some x => x | None => cwd end) /\
  match pl_snapshot p with
  | None => pl_snapshot q = None
  | Some s => exists s', pl_snapshot q = Some s' /\ sn_interval s' = sn_interval s /\
                sn_path s' = Some (match sn_path s with Some x => x | None => cwd end)
  end.

(** The row of a newly submitted job. *)
Definition fresh_job (id : Z) (p : payload) (name : option string) (t : Z) : job :=
  mkJob id p name None Sq t None None None None None None.

(** A repository that the settings know. *)
Definition known_repo (st : settings) (r : string) : Prop :=
  r = "default"%string \/ In r (dkeys (st_repos st)).

(** ** Status *)

(** [l] is the list of all elements of the queue with a given property, each
    once, in increasing id order. *)
Definition exactly (P : job -> Prop) (queue l : list job) : Prop :=
  (forall j, In j l <-> In j queue /\ P j) /\ StronglySorted Z.lt (map j_id l).

(** The message of a status reply is about the jobs [l]. *)
Definition reports (m : rmsg) (l : list job) : Prop :=
  match m with
  | MFoundOne s => exists j, l = [j] /\ j_status j = s
  | MFound groups =>
      NoDup (map fst groups) /\
      (forall s ids, In (s, ids) groups ->
         ids <> [] /\ forall i, In i ids <-> exists j, In j l /\ j_id j = i /\ j_status j = s) /\
      (forall j, In j l -> exists ids, In (j_status j, ids) groups)
  | _ => False
  end.

(** ** Cancel *)

(** Effect of cancelling one job on its status. *)
Definition cancelled (s : jstatus) : jstatus :=
  match s with Sq | Sqw => Scd | Sr => Srd | s => s end.
Definition with_jstatus (j : job) (s : jstatus) : job :=
  mkJob (j_id j) (j_payload j) (j_jobname j) (j_pid j) s (j_submitted j) (j_launched j)
    (j_connected j) (j_completed j) (j_jobpath j) (j_respath j) (j_snappath j).
Definition finished (s : jstatus) : Prop := s = Sc \/ s = Scd \/ s = Sce.

(** The queue [l] with the jobs in [ids] cancelled. *)
Definition cancel_all (ids : list Z) (l : list job) : list job :=
  map (fun j => if memZ (j_id j) ids then with_jstatus j (cancelled (j_status j)) else j) l.

(** ** Search *)
Definition contains (t s : string) : Prop := exists a b, s = (a ++ t ++ b)%string.

(** Equality of texts up to the case of ASCII letters. *)
Fixpoint same_ci (s t : string) : Prop :=
  match s, t with
  | EmptyString, EmptyString => True
  | String a s', String b t' => lower a = lower b /\ same_ci s' t'
  | _, _ => False
  end.
Definition contains_ci (t s : string) : Prop :=
  exists a m b, s = (a ++ m ++ b)%string /\ same_ci t m.

(** [LIKE] as sqlite documents it: in the pattern (first) ["%"] stands for any text and ["_"]
    for any character; another character stands for itself, up to the case of ASCII letters. *)
Inductive pattern_of : string -> string -> Prop :=
| PatEnd : pattern_of "" ""
| PatAny p a s : pattern_of p s -> pattern_of (String "%" p) (a ++ s)
| PatOne p c s : pattern_of p s -> pattern_of (String "_" p) (String c s)
| PatChar p c c' s : c <> "%"%char -> lower c = lower c' -> pattern_of p s -> pattern_of (String c p) (String c' s).

(** ** Snapshots *)

(** The effects [es] happened one after the other, and nothing else changed. *)
Fixpoint add_events (w : world) (es : list event) : world :=
  match es with [] => w | e :: r => add_events (add_event w e) r end.
(** The archive of a snapshot of job [j] in the current directory.  It describes the job
    as it is recorded, except that it names itself as the snapshot. *)
Definition snapshot_of (j : job) : event :=
  let path := "snapshot." ++ str_of_Z (j_id j) ++ ".nc" in
  EvArchive path (mkJob (j_id j) (j_payload j) (j_jobname j) (j_pid j) (j_status j) (j_submitted j) (j_launched j)
                        (j_connected j) (j_completed j) (j_jobpath j) (j_respath j) (Some path)).
