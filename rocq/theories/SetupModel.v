(** * SetupModel: creating settings and database, and starting the daemon

    Models /repo/src/tomato/tomato/__init__.py: init (375-459) and start (259-330);
    /repo/src/tomato/daemon/db.py: connect_db (16-23) and setup_db (26-114).
    Definitions only.

    Simplifications: a path is the list of its components and is resolved (no links);
    the text of the default settings and devices files is a parameter; a table is the list of
    the names of its columns and the list of its rows, a value is a text or NULL; sqlite creates the
    database file with the first statement, every statement of setup_db is committed on its
    own (the sqlite3 module opens transactions only for INSERT, UPDATE, DELETE; the one
    UPDATE, line 46, is committed in line 48 and is unreachable); permissions and a full
    disk are not modelled; no other process touches the files meanwhile. *)
From Coq Require Import List String ZArith Bool.
From Verif Require Import Base Prog.
Import ListNotations.
Open Scope Z_scope.
Open Scope string_scope.
Open Scope prog_scope.

(** ** File system and databases *)
Definition path : Type := list string.
Definition path_eq (a b : path) : {a = b} + {a <> b} := list_eq_dec string_dec a b.

(** The values of a row by the names of the columns; [None] is NULL. *)
Definition srow : Type := dict (option string).
Record sqldb : Type := mkDb { db_version : Z; db_tables : dict (list string); db_rows : dict (list srow) }.
Definition new_db : sqldb := mkDb 0 [] [].
Inductive node : Type := NDir | NFile (content : string) | NDb (d : sqldb).
(** Assignments of a node to a path, the latest first. *)
Definition tree : Type := list (path * node).
Fixpoint look (t : tree) (p : path) : option node :=
  match t with
  | [] => None
  | (q, n) :: r => if path_eq q p then Some n else look r p
  end.
(** The root exists. *)
Definition node_at (t : tree) (p : path) : option node :=
  match p with [] => Some NDir | _ => look t p end.
Definition put (t : tree) (p : path) (n : node) : tree := (p, n) :: t.

(** [os.makedirs(p)] *)
Fixpoint mkdirs (t : tree) (done todo : path) : res tree :=
  match todo with
  | [] => Ok t
  | c :: r =>
      let q := (done ++ [c])%list in
      match node_at t q with
      | None => mkdirs (put t q NDir) q r
      | Some NDir => mkdirs t q r
      | Some _ => Err FileExistsError
      end
  end.

(** The statements of setup_db (db.py:30-113). *)
Inductive stmt : Type :=
| SCreate (table : string) (cols : list string)        (* CREATE TABLE IF NOT EXISTS *)
| SRename (table old new : string)                     (* ALTER TABLE RENAME COLUMN *)
| SAddCol (table col : string)                         (* ALTER TABLE ADD COLUMN *)
| SCopyCol (table to from : string)                    (* UPDATE t SET to = from *)
| SVersion (v : Z).                                    (* PRAGMA user_version = v *)
(** All rows of a table are changed. *)
Definition each_row (f : srow -> srow) (t : string) (l : dict (list srow)) : dict (list srow) :=
  dset l t (map f (match dget l t with Some r => r | None => [] end)).
Definition value (r : srow) (c : string) : option string := match dget r c with Some v => v | None => None end.
Definition sql (s : stmt) (d : sqldb) : res sqldb :=
  match s with
  | SCreate t cols =>
      if dhas (db_tables d) t then Ok d
      else Ok (mkDb (db_version d) (dset (db_tables d) t cols) (dset (db_rows d) t []))
  | SRename t a b =>
      match dget (db_tables d) t with
      | Some cols => if mem a cols && negb (mem b cols)
                     then Ok (mkDb (db_version d) (dset (db_tables d) t (map (fun c => if String.eqb c a then b else c) cols))
                                   (each_row (map (fun x => (if String.eqb (fst x) a then b else fst x, snd x))) t (db_rows d)))
                     else Err SqlError
      | None => Err SqlError
      end
  | SAddCol t c =>
      match dget (db_tables d) t with
      | Some cols => if mem c cols then Err SqlError
                     else Ok (mkDb (db_version d) (dset (db_tables d) t (cols ++ [c])%list)
                                   (each_row (fun r => (r ++ [(c, None)])%list) t (db_rows d)))
      | None => Err SqlError
      end
  | SCopyCol t a b =>
      match dget (db_tables d) t with
      | Some cols => if mem a cols && mem b cols
                     then Ok (mkDb (db_version d) (db_tables d) (each_row (fun r => dset r a (value r b)) t (db_rows d)))
                     else Err SqlError
      | None => Err SqlError
      end
  | SVersion v => Ok (mkDb v (db_tables d) (db_rows d))
  end.

(** ** The world and its operations *)

(** Files, ports in use, daemons spawned (port and settings directory). *)
Record host : Type := mkHost { h_tree : tree; h_ports : list Z; h_spawned : list (Z * path) }.

Inductive sop : Type :=
| UExists (p : path)
| UMakedirs (p : path)
| UOpen (p : path)                  (* open(p, "w"): creates or truncates *)
| UWrite (p : path) (content : string)
| URead (p : path)
| UQueue (p : path)                 (* db.py:30-31: is there a table 'queue'? *)
| UVersion (p : path)               (* db.py:34-35 *)
| USql (p : path) (s : stmt)
| UBind (port : Z)                  (* start: bind, and unbind again *)
| USpawn (port : Z) (appdir : path).
Definition sresp (o : sop) : Type :=
  match o with
  | UExists _ => bool | UQueue _ => bool | UVersion _ => Z | URead _ => string
  | _ => unit
  end.
Definition spgm := prog sop sresp.
Definition sact (o : sop) : spgm (sresp o) := do o.

(** The database in a file: an empty file is an empty database. *)
Definition db_at (t : tree) (p : path) : res sqldb :=
  match node_at t p with
  | Some (NDb d) => Ok d
  | Some (NFile "") => Ok new_db
  | Some _ => Err SqlError
  | None => match node_at t (removelast p) with Some NDir => Ok new_db | _ => Err SqlError end
  end.
Definition set_tree (h : host) (t : tree) : host := mkHost t (h_ports h) (h_spawned h).

Definition sexec (o : sop) (h : host) : res (sresp o) * host :=
  match o return res (sresp o) * host with
  | UExists p => (Ok (is_some (node_at (h_tree h) p)), h)
  | UMakedirs p => match mkdirs (h_tree h) [] p with
                   | Ok t => (Ok tt, set_tree h t)
                   | Err e => (Err e, h)
                   end
  | UOpen p => match node_at (h_tree h) p with
               | Some NDir => (Err FileExistsError, h)
               | Some _ => (Ok tt, set_tree h (put (h_tree h) p (NFile "")))
               | None => match node_at (h_tree h) (removelast p) with
                         | Some NDir => (Ok tt, set_tree h (put (h_tree h) p (NFile "")))
                         | _ => (Err FileNotFoundError, h)
                         end
               end
  | UWrite p c => (Ok tt, set_tree h (put (h_tree h) p (NFile c)))
  | URead p => match node_at (h_tree h) p with
               | Some (NFile c) => (Ok c, h)
               | _ => (Err FileNotFoundError, h)
               end
  | UQueue p => match db_at (h_tree h) p with
                | Ok d => (Ok (dhas (db_tables d) "queue"), set_tree h (put (h_tree h) p (NDb d)))
                | Err e => (Err e, h)
                end
  | UVersion p => match db_at (h_tree h) p with
                  | Ok d => (Ok (db_version d), h)
                  | Err e => (Err e, h)
                  end
  | USql p s => match db_at (h_tree h) p with
                | Ok d => match sql s d with
                          | Ok d' => (Ok tt, set_tree h (put (h_tree h) p (NDb d')))
                          | Err e => (Err e, h)
                          end
                | Err e => (Err e, h)
                end
  | UBind port => (if memZ port (h_ports h) then Err ZMQError else Ok tt, h)
  | USpawn port a => (Ok tt, mkHost (h_tree h) (h_ports h) (h_spawned h ++ [(port, a)])%list)
  end.

(** ** The code *)

Definition queue_cols : list string :=
  ["id"; "payload"; "jobname"; "pid"; "status"; "submitted_at"; "launched_at"; "connected_at";
   "completed_at"; "jobpath"; "respath"; "snappath"].
Definition pip_cols : list string := ["name"; "ready"; "jobid"; "sampleid"].
Definition drv_cols : list string :=
  ["name"; "port"; "pid"; "version"; "spawn_time"; "spawn_count"; "heartbeat_time"].

(** connect_db (db.py:16-23) *)
Definition connect_db (p : path) : spgm unit :=
  b <- sact (UExists (removelast p));;
  if b then Ret tt else sact (UMakedirs (removelast p)).

(** The loop of setup_db (db.py:38-75).  [fuel] bounds its turns: version 1 needs two. *)
Fixpoint upgrade (fuel : nat) (p : path) (v : Z) : spgm unit :=
  match fuel with
  | O => Raise OutOfFuel
  | S n =>
      if (v <? 3)%Z then
        (if (v =? 1)%Z then
           sact (USql p (SRename "queue" "executed_at" "connected_at"));;;
           sact (USql p (SAddCol "queue" "launched_at"));;;
           sact (USql p (SCopyCol "queue" "launched_at" "connected_at"));;;
           sact (USql p (SVersion 2))
         else Ret tt);;;
        (if (v =? 2)%Z then
           sact (USql p (SCreate "pipelines" pip_cols));;;
           sact (USql p (SCreate "drivers" drv_cols));;;
           sact (USql p (SVersion 3))
         else Ret tt);;;
        v' <- sact (UVersion p);;
        upgrade n p v'
      else Ret tt
  end.
(** setup_db (db.py:26-114): the version is asserted before the upgrade (36). *)
Definition setup_db (p : path) : spgm unit :=
  connect_db p;;;
  q <- sact (UQueue p);;
  if q then
    v <- sact (UVersion p);;
    assertP (v =? 3)%Z;;;
    upgrade 3 p v
  else
    sact (USql p (SCreate "queue" queue_cols));;;
    sact (USql p (SCreate "pipelines" pip_cols));;;
    sact (USql p (SCreate "drivers" drv_cols));;;
    sact (USql p (SVersion 3)).

Definition settings_file (appdir : path) : path := (appdir ++ ["settings.toml"])%list.
Definition devices_file (appdir : path) : path := (appdir ++ ["devices.yml"])%list.
Definition storage_dir (datadir : path) : path := (datadir ++ ["Jobs"])%list.
Definition default_db (datadir : path) : path := (storage_dir datadir ++ ["dbpath.sqlite"])%list.

(** [if not p.exists(): ...] *)
Definition unless (p : path) (q : spgm unit) : spgm unit :=
  b <- sact (UExists p);; if b then Ret tt else q.

(** init (375-459): [true] is the success of the reply. *)
Definition init (appdir datadir logdir : path) (settings devices : string) : spgm bool :=
  unless appdir (sact (UMakedirs appdir));;;
  unless (settings_file appdir) (sact (UOpen (settings_file appdir));;; sact (UWrite (settings_file appdir) settings));;;
  unless (devices_file appdir) (sact (UOpen (devices_file appdir));;; sact (UWrite (devices_file appdir) devices));;;
  unless logdir (sact (UMakedirs logdir));;;
  unless (storage_dir datadir) (sact (UMakedirs (storage_dir datadir)));;;
  unless (default_db datadir) (setup_db (default_db datadir));;;
  Ret true.

(** start (259-330).  [dbpath] reads settings["jobs"]["dbpath"] from the text of the
    settings file, or raises.  The status request of line 291 goes to the port just bound
    by this very process, which does not answer: never a success.  The final status
    request (329-330) is left out; [true]: it is made. *)
Definition start (dbpath : string -> res path) (port : Z) (appdir : path) : spgm bool :=
  Op (UBind port) (fun r =>
    match r with
    | Err ZMQError => Ret false
    | Err e => Raise e
    | Ok _ =>
        b <- sact (UExists (settings_file appdir));;
        if b then
          text <- sact (URead (settings_file appdir));;
          db <- lift (dbpath text);;
          setup_db db;;;
          sact (USpawn port appdir);;;
          Ret true
        else Ret false
    end).

(** Executions: [n] operations, then a crash; and whole programs. *)
Fixpoint cut {A : Type} (n : nat) (p : spgm A) (h : host) : spgm A * host :=
  match n, p with
  | S m, Op o k => let (r, h') := sexec o h in cut m (k r) h'
  | _, _ => (p, h)
  end.
Definition runs {A : Type} (p : spgm A) (h : host) : res A * host := run sexec p h.
