(** * SnapModel: a job process whose threads share the data files

    The worker threads of a job (job_thread, daemon/job.py:500-702) store data with
    [data_to_pickle], each in the file of its own role, while the main thread of the same
    process (job_main_loop, daemon/job.py:794-798), or another process ([ketchup snapshot],
    the job manager), merges these files with [merge_netcdfs].  The operations on the file
    system are those of IoModel, and are interleaved arbitrarily.  Definitions only.

    Simplifications: those of IoModel; what the threads do between two operations on the
    files is left out. *)
From Coq Require Import List String.
From Verif Require Import Base Prog IoModel.
Import ListNotations.

(** The next operation of a program. *)
Definition fstep {A : Type} (p : fpgm A) (s : fsys) : option (fpgm A * fsys) :=
  match p with
  | Op o k => let (r, s') := fexec o s in Some (k r, s')
  | _ => None
  end.

(** All the stores of one worker: the batches of data in their order (job.py:639, 681, 697). *)
Fixpoint writer (role : string) (l : list (list nat)) : fpgm unit :=
  match l with
  | [] => Ret tt
  | d :: r => bind (store_role role d) (fun _ => writer role r)
  end.

(** The files, the thread that merges, and the workers. *)
Record cjob : Type := mkCjob { c_fs : fsys; c_merge : fpgm unit; c_workers : list (fpgm unit) }.

(** A step of one of the threads. *)
Inductive cstep : cjob -> cjob -> Prop :=
| cs_merge : forall s m ws m' s', fstep m s = Some (m', s') -> cstep (mkCjob s m ws) (mkCjob s' m' ws)
| cs_worker : forall s m l1 w l2 w' s', fstep w s = Some (w', s') ->
    cstep (mkCjob s m (l1 ++ w :: l2)) (mkCjob s' m (l1 ++ w' :: l2)).
Inductive csteps : cjob -> cjob -> Prop :=
| cs_refl : forall s, csteps s s
| cs_more : forall a b c, csteps a b -> cstep b c -> csteps a c.

(** Workers with the batches they are going to store. *)
Definition c_start (s : fsys) (out : string) (ws : list (string * list (list nat))) : cjob :=
  mkCjob s (merge out) (map (fun rb => writer (fst rb) (snd rb)) ws).
