(** * IoModel: the data files of a job

    Models [data_to_pickle] and [merge_netcdfs] (daemon/io.py:21-66) operation by operation
    on the file system, so that a job process can be killed between any two of them.
    Definitions only.

    Simplifications:
    - a Dataset is its attribute "role" and the list of its data points (numbered);
      [xr.concat] along "uts" appends, and keeps the attributes of its first argument; it
      does not raise;
    - writing a pickle is two operations: truncating the file (open with mode wb) and
      dumping into it; a file that was truncated and not dumped cannot be loaded
      (EOFError); disk errors are left out;
    - the file system is the job folder (file name to content) and the NetCDF files
      written (path to groups); the folder is listed in the order of the dictionary, which
      is arbitrary;
    - a role containing a slash denotes a file in a folder that does not exist;
    - [DataTree.from_dict] makes one group per key; the attributes of the root are left
      out; writing a NetCDF file is one operation. *)
From Coq Require Import List String Ascii ZArith Bool.
From Verif Require Import Base PyStr Prog.
Import ListNotations.
Open Scope prog_scope.
Open Scope string_scope.

Record dataset : Type := mkDs { ds_role : option string; ds_points : list nat }.
(** What a .pkl file holds: it was truncated and not dumped; the pickled value. *)
Inductive pkl : Type := PBroken | PValue (v : option dataset).
Record fsys : Type := mkFs { f_folder : dict pkl; f_out : dict (dict (list nat)) }.

(** Operations on the file system. *)
Inductive fop : Type :=
| FExists (n : string)                               (* io.py:58 *)
| FLoad (n : string)                                 (* 30-31, 59-60 *)
| FTrunc (n : string)                                (* 65 *)
| FDump (n : string) (v : dataset)                   (* 66 *)
| FGlob                                              (* 29 *)
| FNetcdf (path : string) (g : dict (list nat)).     (* 46 *)
Definition fresp (o : fop) : Type :=
  match o with
  | FExists _ => bool
  | FLoad _ => option dataset
  | FGlob => list string
  | _ => unit
  end.
Definition fpgm (A : Type) : Type := prog fop fresp A.
Definition fact (o : fop) : fpgm (fresp o) := do o.

(** [fnmatch(n, "*.pkl")] *)
Fixpoint is_pkl (n : string) : bool :=
  String.eqb n ".pkl" || match n with EmptyString => false | String _ r => is_pkl r end.

(** Meaning of the operations. *)
Definition fexec (o : fop) (s : fsys) : res (fresp o) * fsys :=
  match o as o' return res (fresp o') * fsys with
  | FExists n => (Ok (dhas (f_folder s) n), s)
  | FLoad n => (match dget (f_folder s) n with
                | None => Err FileNotFoundError
                | Some PBroken => Err EOFError
                | Some (PValue v) => Ok v
                end, s)
  | FTrunc n => if has_char "/" n then (Err FileNotFoundError, s)
                else (Ok tt, mkFs (dset (f_folder s) n PBroken) (f_out s))
  | FDump n v => (Ok tt, mkFs (dset (f_folder s) n (PValue (Some v))) (f_out s))
  | FGlob => (Ok (filter is_pkl (dkeys (f_folder s))), s)
  | FNetcdf p g => (Ok tt, mkFs (f_folder s) (dset (f_out s) p g))
  end.

(** [data_to_pickle] (51-66), for the file [n] of the job folder. *)
Definition data_to_pickle (d : list nat) (n role : string) : fpgm unit :=
  let ds := mkDs (Some role) d in
  b <- fact (FExists n);;
  ds' <- (if (b : bool)
          then old <- fact (FLoad n);;
               match (old : option dataset) with
               | Some o => Ret (mkDs (ds_role o) (ds_points o ++ d))
               | None => Ret ds
               end
          else Ret ds);;
  fact (FTrunc n);;;
  fact (FDump n ds').

(** The file of a role (job.py:534). *)
Definition role_file (role : string) : string := role ++ ".pkl".
Definition store_role (role : string) (d : list nat) : fpgm unit := data_to_pickle d (role_file role) role.

(** The dictionary [{ds.attrs["role"]: ds for ds in datasets}] (35). *)
Fixpoint groups (acc : dict (list nat)) (l : list dataset) : res (dict (list nat)) :=
  match l with
  | [] => Ok acc
  | ds :: r => match ds_role ds with
               | None => Err KeyError
               | Some role => groups (dset acc role (ds_points ds)) r
               end
  end.

(** [merge_netcdfs] (21-48), with the path of the result or snapshot file. *)
Definition merge (outpath : string) : fpgm unit :=
  names <- fact FGlob;;
  l <- forP (fun acc n => v <- fact (FLoad n);;
                          Ret (match (v : option dataset) with Some ds => (acc ++ [ds])%list | None => acc end))
            [] (names : list string);;
  g <- lift (groups [] l);;
  fact (FNetcdf outpath g).

(** Executions: [n] operations of the program, then a crash (or nothing more to do). *)
Fixpoint after {A : Type} (n : nat) (p : fpgm A) (s : fsys) : fpgm A * fsys :=
  match n, p with
  | S m, Op o k => let (r, s') := fexec o s in after m (k r) s'
  | _, _ => (p, s)
  end.
(** The whole program. *)
Definition runf {A : Type} (p : fpgm A) (s : fsys) : res A * fsys := run fexec p s.

(** Data stored for several roles, in some order. *)
Definition store_all (l : list (string * list nat)) : fpgm unit :=
  forP (fun _ rd => store_role (fst rd) (snd rd)) tt l.
