(** * SpecStart: vocabulary for drivers that are, or are not, available (C88, C89) *)
From Coq Require Import List String Ascii ZArith Bool.
From Verif Require Import Base PyStr Types Prog World ConfigModel SysModel StartModel SpecJob.
Import ListNotations.
Open Scope list_scope.
Open Scope Z_scope.

(** Driver [n] is recorded; it has no port. *)
Definition without_port (w : world) (n : string) : Prop :=
  forall v, In v (w_drvs w) -> dv_name v = n -> dv_port v = None.
Definition recorded (w : world) (n : string) : Prop :=
  exists v, In v (w_drvs w) /\ dv_name v = n.

(** A program that only reads, while others change the world: its i-th operation
    finds the world [ws i]. *)
Fixpoint observe {A : Type} (p : pgm A) (ws : nat -> world) (i : nat) : res A :=
  match p with
  | Ret a => Ok a
  | Raise e => Err e
  | Op o k => observe (k (fst (exec o (ws i)))) ws (S i)
  end.

(** None of the steps starts a process for driver [n] whose interface can be created.
    ([sql_lit] is how the name is read within the SQL statement.) *)
Definition never_serves (n : string) (l : label) : Prop :=
  match l with
  | LDriver m _ _ _ ok => sql_lit m = Some n -> ok = false
  | _ => True
  end.

(** The module of a driver: the name after "tomato_", with a low line for each dash. *)
Definition module_of (name m : string) : Prop :=
  exists tail, m = String.append "tomato_" tail /\
    Forall2 (fun a b => (a = "-"%char -> b = "_"%char) /\ (a <> "-"%char -> b = a))
      (list_ascii_of_string name) (list_ascii_of_string tail).

(** A driver process in the world [w]: the class that it loads, its settings, and the
    rows of drivers afterwards. *)
Definition serves (imports : string -> imported) (n : string) (w : world) (c : dclass) (n' : string) : Prop :=
  (exists m, module_of n m /\ imports m = IModule (Some c)) /\
  (exists dm drv, w_daemon w = Some dm /\ dget (df_drivers (dm_df dm)) n = Some drv /\
     cl_new c (dr_settings drv) = Ok tt) /\
  sql_lit n = Some n'.
Definition served_row (c : dclass) (n' : string) (port pid : Z) (v v' : drvstate) : Prop :=
  (dv_name v <> n' /\ v' = v) \/
  (dv_name v = n' /\ v' = mkDrv n' (Some port) (Some pid) (Some (cl_version c)) (dv_spawn_time v) (dv_spawn_count v) 0).

