(** * P_Setup: tomato init, the database, tomato start (C70, C74, C76) *)
From Coq Require Import List String ZArith Bool Lia.
From Verif Require Import Base BaseFacts Prog ProgFacts SetupModel SpecSetup SetupProofs.
Import ListNotations.
Open Scope string_scope.
Open Scope prog_scope.

(** ** C70: tomato init *)

(** Whatever exists -- files, folders, databases -- is the same after tomato init, whether
    it succeeds, fails, or is killed at any moment. *)
Theorem C70 h appdir datadir logdir settings devices n p x :
  node_at (h_tree h) p = Some x ->
  node_at (h_tree (snd (cut n (init appdir datadir logdir settings devices) h))) p = Some x
  /\ node_at (h_tree (snd (runs (init appdir datadir logdir settings devices) h))) p = Some x.
Proof.
  intros E. split.
  - exact (saf_init (h_tree h) appdir datadir logdir settings devices h n (grown_refl _) p x E).
  - exact (saf_run _ _ h (saf_init (h_tree h) appdir datadir logdir settings devices) (grown_refl _) p x E).
Qed.
Print Assumptions C70.

Lemma snoc_ne {A} (l : list A) x : (l ++ [x])%list <> [].
Proof. intros E. apply app_eq_nil in E as [_ E]. discriminate E. Qed.

(** A step of init, when all went well. *)
Lemma run_bind_ok {A B} (p : spgm A) (f : A -> spgm B) h b h' :
  runs (bind p f) h = (Ok b, h') -> exists a h1, runs p h = (Ok a, h1) /\ runs (f a) h1 = (Ok b, h').
Proof.
  unfold runs. rewrite run_bind. destruct (run sexec p h) as [[a|e] h1] eqn:E; intros H; [eauto | discriminate H].
Qed.
Lemma run_unless p q h u h' : runs (unless p q) h = (Ok u, h') ->
  (is_some (node_at (h_tree h) p) = true /\ h' = h)
  \/ (is_some (node_at (h_tree h) p) = false /\ runs q h = (Ok u, h')).
Proof.
  unfold unless, runs. cbn [sact do bind run sexec]. destruct (is_some (node_at (h_tree h) p)) eqn:E; cbn [run bind].
  - intros [= <- <-]. auto.
  - auto.
Qed.
Lemma run_makedirs p h u h' : runs (sact (UMakedirs p)) h = (Ok u, h') -> node_at (h_tree h') p = Some NDir.
Proof.
  unfold runs. cbn [sact do run sexec]. destruct (mkdirs (h_tree h) [] p) as [t|e] eqn:E; cbn [run]; [|intros [=]].
  intros [= <- <-]. exact (mkdirs_exists p _ [] _ eq_refl E).
Qed.
Lemma run_write p c h u h' : p <> [] ->
  runs (sact (UOpen p);;; sact (UWrite p c)) h = (Ok u, h') -> node_at (h_tree h') p = Some (NFile c).
Proof.
  intros NE H. apply run_bind_ok in H as (u1 & h1 & _ & H). cbn in H. injection H as <- <-.
  apply node_put_same. exact NE.
Qed.
(** No operation removes anything. *)
Lemma put_exists t p n q : is_some (node_at t q) = true -> is_some (node_at (put t p n) q) = true.
Proof.
  intros E. destruct (path_eq q p) as [->|N]; [|rewrite node_put_other by exact N; exact E].
  destruct p; [reflexivity|]. cbn [node_at]. rewrite look_put_same. reflexivity.
Qed.
Lemma exec_exists o h q : is_some (node_at (h_tree h) q) = true -> is_some (node_at (h_tree (snd (sexec o h))) q) = true.
Proof.
  intros E. destruct o; cbn [sexec snd h_tree set_tree]; try exact E.
  - destruct (mkdirs (h_tree h) [] p) as [t|] eqn:M; [|exact E]. cbn.
    destruct (node_at (h_tree h) q) as [x|] eqn:X; [|discriminate E]. rewrite (mkdirs_grown _ _ _ _ M _ _ X). reflexivity.
  - destruct (node_at (h_tree h) p) as [[]|]; cbn; try exact E; try (apply put_exists; exact E).
    destruct (node_at (h_tree h) (removelast p)) as [[]|]; cbn; try exact E. apply put_exists; exact E.
  - apply put_exists; exact E.
  - destruct (node_at (h_tree h) p) as [[]|]; exact E.
  - destruct (db_at (h_tree h) p); [apply put_exists|]; exact E.
  - destruct (db_at (h_tree h) p); exact E.
  - destruct (db_at (h_tree h) p) as [d|]; [|exact E]. destruct (sql s d); [apply put_exists|]; exact E.
Qed.
Lemma run_exists {A} (p : spgm A) : forall h q, is_some (node_at (h_tree h) q) = true ->
  is_some (node_at (h_tree (snd (runs p h))) q) = true.
Proof.
  unfold runs. induction p as [a|e|o k IH]; intros h q E; cbn [run]; try exact E.
  pose proof (exec_exists o h q E) as X. destruct (sexec o h) as [r h']. apply IH. exact X.
Qed.
Lemma run_setup_exists p h u h' : p <> [] -> runs (setup_db p) h = (Ok u, h') ->
  is_some (node_at (h_tree h') p) = true.
Proof.
  intros NE H. unfold setup_db in H. apply run_bind_ok in H as (u1 & h1 & _ & H).
  apply run_bind_ok in H as (q & h2 & Q & H). pose proof (f_equal snd H) as E. cbn [snd] in E. rewrite <- E.
  apply run_exists. revert Q. unfold runs. cbn [sact do run sexec].
  destruct (db_at (h_tree h1) p) as [d|e]; cbn; [|intros [=]]. intros [= <- <-]. cbn [set_tree h_tree].
  rewrite node_put_same by exact NE. reflexivity.
Qed.

(** After a successful tomato init: all parts exist. *)
Theorem C70_complete h appdir datadir logdir settings devices h' :
  runs (init appdir datadir logdir settings devices) h = (Ok true, h') ->
  Forall (fun p => is_some (node_at (h_tree h') p) = true)
    [appdir; settings_file appdir; devices_file appdir; logdir; storage_dir datadir; default_db datadir].
Proof.
  intros H. unfold init in H.
  apply run_bind_ok in H as ([] & h1 & H1 & H). apply run_bind_ok in H as ([] & h2 & H2 & H).
  apply run_bind_ok in H as ([] & h3 & H3 & H). apply run_bind_ok in H as ([] & h4 & H4 & H).
  apply run_bind_ok in H as ([] & h5 & H5 & H). apply run_bind_ok in H as ([] & h6 & H6 & H).
  cbn in H. injection H as <-.
  assert (E1 : is_some (node_at (h_tree h1) appdir) = true).
  { apply run_unless in H1 as [[E ->]|[_ R]]; [exact E|]. rewrite (run_makedirs _ _ _ _ R). reflexivity. }
  assert (E2 : is_some (node_at (h_tree h2) (settings_file appdir)) = true).
  { apply run_unless in H2 as [[E ->]|[_ R]]; [exact E|]. rewrite (run_write (settings_file appdir) _ _ _ _ (snoc_ne _ _) R). reflexivity. }
  assert (E3 : is_some (node_at (h_tree h3) (devices_file appdir)) = true).
  { apply run_unless in H3 as [[E ->]|[_ R]]; [exact E|]. rewrite (run_write (devices_file appdir) _ _ _ _ (snoc_ne _ _) R). reflexivity. }
  assert (E4 : is_some (node_at (h_tree h4) logdir) = true).
  { apply run_unless in H4 as [[E ->]|[_ R]]; [exact E|]. rewrite (run_makedirs _ _ _ _ R). reflexivity. }
  assert (E5 : is_some (node_at (h_tree h5) (storage_dir datadir)) = true).
  { apply run_unless in H5 as [[E ->]|[_ R]]; [exact E|]. rewrite (run_makedirs _ _ _ _ R). reflexivity. }
  assert (E6 : is_some (node_at (h_tree h6) (default_db datadir)) = true).
  { apply run_unless in H6 as [[E ->]|[_ R]]; [exact E|]. exact (run_setup_exists (default_db datadir) _ _ _ (snoc_ne _ _) R). }
  assert (G : forall (p : spgm unit) ha hb, runs p ha = (Ok tt, hb) -> saf (h_tree ha) p ->
            forall q, is_some (node_at (h_tree ha) q) = true -> is_some (node_at (h_tree hb) q) = true).
  { intros p ha hb R S q. pose proof (saf_run _ _ _ S (grown_refl _)) as I. rewrite R in I.
    destruct (node_at (h_tree ha) q) as [x|] eqn:X; [|discriminate]. intros _.
    cbn [snd] in I. rewrite (I q x X). reflexivity. }
  assert (S2 : forall t p c, saf t (unless p (sact (UOpen p);;; sact (UWrite p c)))).
  { intros t p c. apply saf_unless. intros N. apply saf_bind; [apply saf_open; exact N|]. intros _. apply saf_write. exact N. }
  assert (S1 : forall t p, saf t (unless p (sact (UMakedirs p)))).
  { intros t p. apply saf_unless. intros N. apply saf_makedirs. }
  assert (S3 : forall t p, saf t (unless p (setup_db p))).
  { intros t p. apply saf_unless. intros N. apply saf_setup_db. exact N. }
  pose proof (G _ _ _ H2 (S2 _ _ _)) as G2. pose proof (G _ _ _ H3 (S2 _ _ _)) as G3.
  pose proof (G _ _ _ H4 (S1 _ _)) as G4. pose proof (G _ _ _ H5 (S1 _ _)) as G5. pose proof (G _ _ _ H6 (S3 _ _)) as G6.
  repeat constructor; auto 10.
Qed.
Print Assumptions C70_complete.

(** Running it again changes nothing at all. *)
Theorem C70_again h appdir datadir logdir settings devices settings2 devices2 h' :
  runs (init appdir datadir logdir settings devices) h = (Ok true, h') ->
  runs (init appdir datadir logdir settings2 devices2) h' = (Ok true, h').
Proof.
  intros H. apply C70_complete in H.
  assert (U : forall p q (f : unit -> spgm bool), is_some (node_at (h_tree h') p) = true ->
            runs (bind (unless p q) f) h' = runs (f tt) h').
  { intros p q f E. unfold runs, unless. cbn [sact do bind run sexec]. rewrite E. reflexivity. }
  repeat match goal with H : Forall _ (_ :: _) |- _ => inversion H; clear H; subst end.
  unfold init. rewrite !U by assumption. reflexivity.
Qed.
Print Assumptions C70_again.

Lemma mkdirs_short : forall todo t done t' q, mkdirs t done todo = Ok t' ->
  (List.length (done ++ todo) < List.length q)%nat -> node_at t' q = node_at t q.
Proof.
  induction todo as [|c r IH]; intros t done t' q H L; cbn in H.
  - injection H as <-. reflexivity.
  - assert (S : (done ++ c :: r = (done ++ [c]) ++ r)%list) by (rewrite <- app_assoc; reflexivity). rewrite S in L.
    destruct (node_at t (done ++ [c])%list) as [[]|] eqn:E; try discriminate H.
    + exact (IH _ _ _ _ H L).
    + rewrite (IH _ _ _ _ H L). apply node_put_other. intros ->. rewrite app_length in L. lia.
Qed.
(** A missing settings file is written with the default text, and so is a missing devices
    file. *)
Theorem C70_written h appdir datadir logdir settings devices h' :
  runs (init appdir datadir logdir settings devices) h = (Ok true, h') ->
  (node_at (h_tree h) (settings_file appdir) = None -> node_at (h_tree h') (settings_file appdir) = Some (NFile settings))
  /\ (node_at (h_tree h) (devices_file appdir) = None -> node_at (h_tree h') (devices_file appdir) = Some (NFile devices)).
Proof.
  intros H. unfold init in H.
  apply run_bind_ok in H as ([] & h1 & H1 & H). apply run_bind_ok in H as ([] & h2 & H2 & H).
  assert (A : forall x, node_at (h_tree h1) (appdir ++ [x])%list = node_at (h_tree h) (appdir ++ [x])%list).
  { intros x. apply run_unless in H1 as [[_ ->]|[_ R]]; [reflexivity|].
    unfold runs in R. cbn [sact do run sexec] in R. destruct (mkdirs (h_tree h) [] appdir) as [t|e] eqn:E; cbn in R; [|discriminate R].
    injection R as <-. cbn [set_tree h_tree]. apply (mkdirs_short _ _ _ _ _ E). rewrite !app_length. cbn. lia. }
  assert (S2 : forall t p c, saf t (unless p (sact (UOpen p);;; sact (UWrite p c)))).
  { intros t p c. apply saf_unless. intros N. apply saf_bind; [apply saf_open; exact N|]. intros _. apply saf_write. exact N. }
  assert (S1 : forall t p, saf t (unless p (sact (UMakedirs p)))).
  { intros t p. apply saf_unless. intros N. apply saf_makedirs. }
  assert (S3 : forall t p, saf t (unless p (setup_db p))).
  { intros t p. apply saf_unless. intros N. apply saf_setup_db. exact N. }
  assert (ST : forall t (p : spgm unit) (q : spgm bool), saf t p -> saf t q -> saf t (p;;; q)).
  { intros t p q P Q. apply saf_bind; [exact P | intros _; exact Q]. }
  split; intros N.
  - unfold settings_file in *. rewrite <- A in N. apply run_unless in H2 as [[E _]|[_ R]]; [rewrite N in E; discriminate E|].
    apply (run_write _ _ _ _ _ (snoc_ne _ _)) in R.
    assert (I : saf (h_tree h2) (unless (devices_file appdir) (sact (UOpen (devices_file appdir));;; sact (UWrite (devices_file appdir) devices));;;
      unless logdir (sact (UMakedirs logdir));;; unless (storage_dir datadir) (sact (UMakedirs (storage_dir datadir)));;;
      unless (default_db datadir) (setup_db (default_db datadir));;; Ret true)).
    { repeat (apply ST; [auto|]). apply saf_ret. }
    pose proof (saf_run _ _ _ I (grown_refl _)) as G. rewrite H in G. exact (G _ _ R).
  - unfold devices_file in *. rewrite <- A in N.
    apply run_bind_ok in H as ([] & h3 & H3 & H).
    assert (N2 : node_at (h_tree h2) (appdir ++ ["devices.yml"])%list = None).
    { apply run_unless in H2 as [[_ ->]|[_ R]]; [exact N|].
      apply run_bind_ok in R as ([] & h1' & R1 & R2). cbn in R2. injection R2 as <-. cbn [set_tree h_tree].
      assert (D : (appdir ++ ["devices.yml"])%list <> settings_file appdir).
      { intros E. apply app_inv_head in E. discriminate E. }
      rewrite node_put_other by exact D. revert R1. unfold runs. cbn [sact do run sexec].
      destruct (node_at (h_tree h1) (settings_file appdir)) as [[]|]; cbn; try (intros [=]; fail).
      1,2: intros [= <-]; cbn [set_tree h_tree]; rewrite node_put_other by exact D; exact N.
      destruct (node_at (h_tree h1) (removelast (settings_file appdir))) as [[]|]; cbn; try (intros [=]; fail).
      intros [= <-]. cbn [set_tree h_tree]. rewrite node_put_other by exact D. exact N. }
    apply run_unless in H3 as [[E _]|[_ R]]; [rewrite N2 in E; discriminate E|].
    apply (run_write _ _ _ _ _ (snoc_ne _ _)) in R.
    assert (I : saf (h_tree h3) (unless logdir (sact (UMakedirs logdir));;; unless (storage_dir datadir) (sact (UMakedirs (storage_dir datadir)));;;
      unless (default_db datadir) (setup_db (default_db datadir));;; Ret true)).
    { repeat (apply ST; [auto|]). apply saf_ret. }
    pose proof (saf_run _ _ _ I (grown_refl _)) as G. rewrite H in G. exact (G _ _ R).
Qed.
Print Assumptions C70_written.

Definition host0 : host := mkHost [] [] [].
Definition app1 : path := ["home"; "u"; "cfg"].
Definition dat1 : path := ["data"].
Definition log1 : path := ["var"; "log"].
Definition db3 : sqldb :=
  mkDb 3 [("queue", queue_cols); ("pipelines", pip_cols); ("drivers", drv_cols)]
    [("queue", []); ("pipelines", []); ("drivers", [])].
Example C70_ex :
  let '(r, h) := runs (init app1 dat1 log1 "S" "D") host0 in
  (r, node_at (h_tree h) (settings_file app1), node_at (h_tree h) (devices_file app1), node_at (h_tree h) ["data"; "Jobs"; "dbpath.sqlite"])
  = (Ok true, Some (NFile "S"), Some (NFile "D"), Some (NDb db3)).
Proof. vm_compute. reflexivity. Qed.

(** ** C74: the database *)

(** A database with jobs and a version other than 3 is left alone, and setting it up fails:
    none is ever upgraded. *)
Theorem C74_old p h d :
  node_at (h_tree h) p = Some (NDb d) -> p <> [] -> is_some (node_at (h_tree h) (removelast p)) = true ->
  dhas (db_tables d) "queue" = true -> db_version d <> 3%Z ->
  exists h', runs (setup_db p) h = (Err AssertionError, h') /\ node_at (h_tree h') p = Some (NDb d).
Proof.
  intros E NE D Q V. unfold setup_db, connect_db, runs. cbn [sact do bind run sexec]. rewrite D. cbn [bind].
  cbn [sact do bind run sexec]. unfold db_at. rewrite E. rewrite Q. cbn [bind run].
  cbn [sact do bind run sexec set_tree h_tree]. unfold db_at. rewrite node_put_same by exact NE. cbn [bind].
  apply Z.eqb_neq in V. unfold assertP. rewrite V. cbn [bind run]. eexists. split; [reflexivity|].
  cbn [set_tree h_tree]. apply node_put_same. exact NE.
Qed.
Print Assumptions C74_old.
(** A database of version 3 is accepted and left alone. *)
Theorem C74_current_partial p h d :
  node_at (h_tree h) p = Some (NDb d) -> p <> [] -> is_some (node_at (h_tree h) (removelast p)) = true ->
  dhas (db_tables d) "queue" = true -> db_version d = 3%Z ->
  exists h', runs (setup_db p) h = (Ok tt, h') /\ node_at (h_tree h') p = Some (NDb d).
Proof.
  intros E NE D Q V. unfold setup_db, connect_db, runs. cbn [sact do bind run sexec]. rewrite D. cbn [bind].
  cbn [sact do bind run sexec]. unfold db_at. rewrite E. rewrite Q. cbn [bind run].
  cbn [sact do bind run sexec set_tree h_tree]. unfold db_at. rewrite node_put_same by exact NE. cbn [bind].
  unfold assertP. rewrite V. cbn. eexists. split; [reflexivity|].
  cbn [set_tree h_tree]. destruct p; [congruence|]. apply look_put_same.
Qed.
Print Assumptions C74_current_partial.
(** A missing or empty database, and one with none of the three tables, gets them; other
    tables and their rows stay. *)
Theorem C74_new_partial p h d :
  db_at (h_tree h) p = Ok d -> p <> [] -> is_some (node_at (h_tree h) (removelast p)) = true ->
  dget (db_tables d) "queue" = None -> dget (db_tables d) "pipelines" = None -> dget (db_tables d) "drivers" = None ->
  exists h' d', runs (setup_db p) h = (Ok tt, h') /\ node_at (h_tree h') p = Some (NDb d')
    /\ db_version d' = 3%Z
    /\ dget (db_tables d') "queue" = Some queue_cols /\ dget (db_tables d') "pipelines" = Some pip_cols
    /\ dget (db_tables d') "drivers" = Some drv_cols
    /\ (forall t, ~ In t ["queue"; "pipelines"; "drivers"] ->
          dget (db_tables d') t = dget (db_tables d) t /\ dget (db_rows d') t = dget (db_rows d) t)
    /\ (forall q, q <> p -> node_at (h_tree h') q = node_at (h_tree h) q).
Proof.
  intros E NE D Q P V. unfold setup_db, connect_db, runs. cbn [sact do bind run sexec]. rewrite D. cbn [bind].
  cbn [sact do bind run sexec]. rewrite E. unfold dhas at 1. rewrite Q. cbn [is_some bind].
  assert (B : forall t d0, db_at (put t p (NDb d0)) p = Ok d0).
  { intros t d0. unfold db_at. rewrite node_put_same by exact NE. reflexivity. }
  cbn [sact do bind run sexec set_tree h_tree]. rewrite B. cbn [sql]. unfold dhas. rewrite Q. cbn [is_some bind].
  cbn [sact do bind run sexec set_tree h_tree]. rewrite B. cbn [sql db_tables db_version db_rows]. unfold dhas.
  rewrite dget_dset_other by discriminate. rewrite P. cbn [is_some bind].
  cbn [sact do bind run sexec set_tree h_tree]. rewrite B. cbn [sql db_tables db_version db_rows]. unfold dhas.
  rewrite !dget_dset_other by discriminate. rewrite V. cbn [is_some bind].
  cbn [sact do bind run sexec set_tree h_tree]. rewrite B. cbn [sql db_tables db_version db_rows].
  eexists. eexists. split; [reflexivity|]. cbn [h_tree db_version db_tables db_rows].
  split; [apply node_put_same; exact NE|]. split; [reflexivity|]. cbn [db_version db_tables db_rows].
  split; [rewrite !dget_dset_other by discriminate; apply dget_dset_same|].
  split; [rewrite dget_dset_other by discriminate; apply dget_dset_same|].
  split; [apply dget_dset_same|]. split.
  - intros t N. assert (N1 : t <> "queue") by (intros ->; apply N; cbn; auto).
    assert (N2 : t <> "pipelines") by (intros ->; apply N; cbn; auto).
    assert (N3 : t <> "drivers") by (intros ->; apply N; cbn; auto).
    rewrite !dget_dset_other by assumption. auto.
  - intros q Nq. cbn [h_tree set_tree]. rewrite !node_put_other by exact Nq. reflexivity.
Qed.
Print Assumptions C74_new_partial.

(** A database without a table of jobs gets those of the three tables that it lacks, without
    rows; all tables that exist stay as they are, also one that happens to be called
    "pipelines" or "drivers". *)
Definition created (d d' : sqldb) (t : string) (cols : list string) : Prop :=
  match dget (db_tables d) t with
  | Some c => dget (db_tables d') t = Some c /\ dget (db_rows d') t = dget (db_rows d) t
  | None => dget (db_tables d') t = Some cols /\ dget (db_rows d') t = Some []
  end.
Lemma sql_create t cols d : exists d', sql (SCreate t cols) d = Ok d' /\ db_version d' = db_version d /\
  created d d' t cols /\ forall u, u <> t -> dget (db_tables d') u = dget (db_tables d) u /\ dget (db_rows d') u = dget (db_rows d) u.
Proof.
  unfold created. cbn [sql]. unfold dhas. destruct (dget (db_tables d) t) as [c|] eqn:E; cbn [is_some].
  - exists d. split; [reflexivity|]. split; [reflexivity|]. split; [auto|auto].
  - eexists. split; [reflexivity|]. cbn [db_version db_tables db_rows]. split; [reflexivity|].
    rewrite !dget_dset_same. split; [auto|]. intros u U. rewrite !dget_dset_other by exact U. auto.
Qed.
Theorem C74_completes p h d :
  db_at (h_tree h) p = Ok d -> p <> [] -> is_some (node_at (h_tree h) (removelast p)) = true ->
  dget (db_tables d) "queue" = None ->
  exists h' d', runs (setup_db p) h = (Ok tt, h') /\ node_at (h_tree h') p = Some (NDb d')
    /\ db_version d' = 3%Z
    /\ created d d' "queue" queue_cols /\ created d d' "pipelines" pip_cols /\ created d d' "drivers" drv_cols
    /\ (forall t, ~ In t ["queue"; "pipelines"; "drivers"] ->
          dget (db_tables d') t = dget (db_tables d) t /\ dget (db_rows d') t = dget (db_rows d) t)
    /\ (forall q, q <> p -> node_at (h_tree h') q = node_at (h_tree h) q).
Proof.
  intros E NE D Q. unfold setup_db, connect_db, runs. cbn [sact do bind run sexec]. rewrite D. cbn [bind].
  cbn [sact do bind run sexec]. rewrite E. unfold dhas at 1. rewrite Q. cbn [is_some bind].
  assert (B : forall t d0, db_at (put t p (NDb d0)) p = Ok d0).
  { intros t d0. unfold db_at. rewrite node_put_same by exact NE. reflexivity. }
  destruct (sql_create "queue" queue_cols d) as (d1 & E1 & V1 & C1 & F1).
  destruct (sql_create "pipelines" pip_cols d1) as (d2 & E2 & V2 & C2 & F2).
  destruct (sql_create "drivers" drv_cols d2) as (d3 & E3 & V3 & C3 & F3).
  Local Opaque sql.
  cbn [sact do bind run sexec set_tree h_tree]. rewrite B, E1. cbn [bind].
  cbn [sact do bind run sexec set_tree h_tree]. rewrite B, E2. cbn [bind].
  cbn [sact do bind run sexec set_tree h_tree]. rewrite B, E3. cbn [bind].
  cbn [sact do bind run sexec set_tree h_tree]. rewrite B.
  Local Transparent sql.
  cbn [sql]. eexists. exists (mkDb 3 (db_tables d3) (db_rows d3)). split; [reflexivity|]. cbn [h_tree set_tree].
  split; [apply node_put_same; exact NE|]. split; [reflexivity|].
  assert (N1 : "queue" <> "pipelines") by discriminate. assert (N2 : "queue" <> "drivers") by discriminate.
  assert (N3 : "pipelines" <> "drivers") by discriminate.
  destruct (F2 "queue" N1) as [A1 A2]. destruct (F3 "queue" N2) as [A3 A4]. destruct (F3 "pipelines" N3) as [A5 A6].
  destruct (F1 "pipelines" (not_eq_sym N1)) as [B1 B2]. destruct (F1 "drivers" (not_eq_sym N2)) as [B3 B4].
  destruct (F2 "drivers" (not_eq_sym N3)) as [B5 B6].
  unfold created in *. cbn [db_tables db_rows].
  rewrite B1, B2 in C2. rewrite B5, B6, B3, B4 in C3. rewrite A3, A4, A1, A2, A5, A6.
  split; [exact C1|]. split; [exact C2|]. split; [exact C3|]. split.
  - intros t T. assert (T1 : t <> "queue") by (intros ->; apply T; cbn; auto).
    assert (T2 : t <> "pipelines") by (intros ->; apply T; cbn; auto).
    assert (T3 : t <> "drivers") by (intros ->; apply T; cbn; auto).
    destruct (F1 t T1) as [<- <-]. destruct (F2 t T2) as [<- <-]. destruct (F3 t T3) as [<- <-]. auto.
  - intros q N. rewrite !node_put_other by congruence. reflexivity.
Qed.
Print Assumptions C74_completes.

(** A database of another program, with a table called "pipelines": it stays, with its one
    column, and the version says 3. *)
Example C74_completes_ex :
  let d := mkDb 0 [("pipelines", ["length"])] [("pipelines", [[("length", Some "9")]])] in
  match node_at (h_tree (snd (runs (setup_db ["q.sqlite"]) (mkHost [(["q.sqlite"], NDb d)] [] [])))) ["q.sqlite"] with
  | Some (NDb d') => db_version d' = 3%Z /\ map fst (db_tables d') = ["pipelines"; "queue"; "drivers"] /\
      dget (db_tables d') "pipelines" = Some ["length"] /\ dget (db_rows d') "pipelines" = Some [[("length", Some "9")]]
  | _ => False
  end.
Proof. vm_compute. auto. Qed.

(** Where there is no database, or an empty file in its place, the tables get exactly the
    columns that the statements of jobdb.py, pipdb.py and drvdb.py name, and no rows. *)
Theorem C74_schema p h :
  p <> [] -> node_at (h_tree h) (removelast p) = Some NDir ->
  node_at (h_tree h) p = None \/ node_at (h_tree h) p = Some (NFile "") ->
  exists h' d' q pi dr, runs (setup_db p) h = (Ok tt, h') /\ node_at (h_tree h') p = Some (NDb d')
    /\ db_version d' = 3%Z
    /\ db_tables d' = [("queue", q); ("pipelines", pi); ("drivers", dr)]
    /\ exactly q job_columns /\ exactly pi pipeline_columns /\ exactly dr driver_columns
    /\ db_rows d' = [("queue", []); ("pipelines", []); ("drivers", [])].
Proof.
  intros NE D E.
  assert (X : db_at (h_tree h) p = Ok new_db).
  { unfold db_at. destruct E as [E|E]; rewrite E; [rewrite D|]; reflexivity. }
  assert (B : forall t d0, db_at (put t p (NDb d0)) p = Ok d0).
  { intros t d0. unfold db_at. rewrite node_put_same by exact NE. reflexivity. }
  unfold setup_db, connect_db, runs. cbn [sact do bind run sexec]. rewrite D. cbn [is_some bind].
  cbn [sact do bind run sexec]. rewrite X. cbn [bind].
  change (dhas (db_tables new_db) "queue") with false.
  cbn [sact do bind run sexec set_tree h_tree]. rewrite B. cbn [sql]. change (dhas (db_tables new_db) "queue") with false. cbn [bind].
  cbn [sact do bind run sexec set_tree h_tree]. rewrite B. cbn [sql db_tables db_version db_rows].
  change (dhas (dset (db_tables new_db) "queue" queue_cols) "pipelines") with false. cbn [bind].
  cbn [sact do bind run sexec set_tree h_tree]. rewrite B. cbn [sql db_tables db_version db_rows].
  change (dhas (dset (dset (db_tables new_db) "queue" queue_cols) "pipelines" pip_cols) "drivers") with false. cbn [bind].
  cbn [sact do bind run sexec set_tree h_tree]. rewrite B. cbn [sql db_tables db_version db_rows].
  eexists. eexists. exists queue_cols, pip_cols, drv_cols. split; [reflexivity|]. cbn [h_tree].
  split; [apply node_put_same; exact NE|]. split; [reflexivity|]. split; [reflexivity|].
  split; [|split; [|split; [|reflexivity]]]; (split; [repeat constructor; cbn; intuition discriminate|intros c; cbn; tauto]).
Qed.
Print Assumptions C74_schema.

(** The statement is false for databases of earlier versions (version 2 here, with a job),
    and for one whose creation was interrupted: no later start succeeds. *)
Definition old_db : sqldb := mkDb 2 [("queue", queue_cols)] [("queue", [[("id", Some "7"); ("status", Some "c")]])].
Theorem C74_refuted :
  (exists h, node_at (h_tree h) ["q.sqlite"] = Some (NDb old_db)
     /\ fst (runs (setup_db ["q.sqlite"]) h) = Err AssertionError)
  /\ (exists n, fst (runs (setup_db ["q.sqlite"]) (snd (cut n (setup_db ["q.sqlite"]) host0))) = Err AssertionError).
Proof.
  split.
  - exists (mkHost [(["q.sqlite"], NDb old_db)] [] []). split; vm_compute; reflexivity.
  - exists 3%nat. vm_compute. reflexivity.
Qed.
Print Assumptions C74_refuted.
(** The unreachable upgrade would do its work: version 1 and 2 become 3, the jobs stay, and the
    time of the connection counts as the time of the launch.  Without a column executed_at, or
    with one that is called connected_at already, it fails. *)
Definition v1_cols : list string :=
  ["id"; "payload"; "jobname"; "pid"; "status"; "submitted_at"; "executed_at"; "completed_at"; "jobpath"; "respath"; "snappath"].
Definition v1_db (cols : list string) : sqldb :=
  mkDb 1 [("queue", cols)] [("queue", [[("id", Some "7"); ("executed_at", Some "noon")]; [("id", Some "8"); ("executed_at", None)]])].
Definition v1_host (cols : list string) : host := mkHost [(["q.sqlite"], NDb (v1_db cols))] [] [].
Example C74_upgrade_ex :
  match runs (upgrade 3 ["q.sqlite"] 1) (v1_host v1_cols) with
  | (Ok tt, h') => match node_at (h_tree h') ["q.sqlite"] with
                   | Some (NDb d) => (db_version d, map fst (db_tables d), dget (db_tables d) "queue")
                                     = (3%Z, ["queue"; "pipelines"; "drivers"],
                                        Some ["id"; "payload"; "jobname"; "pid"; "status"; "submitted_at"; "connected_at";
                                              "completed_at"; "jobpath"; "respath"; "snappath"; "launched_at"])
                                     /\ dget (db_rows d) "queue" =
                                        Some [[("id", Some "7"); ("connected_at", Some "noon"); ("launched_at", Some "noon")];
                                              [("id", Some "8"); ("connected_at", None); ("launched_at", None)]]
                   | _ => False
                   end
  | _ => False
  end
  /\ fst (runs (upgrade 3 ["q.sqlite"] 1) (v1_host (v1_cols ++ ["connected_at"])%list)) = Err SqlError
  /\ fst (runs (upgrade 3 ["q.sqlite"] 1) (v1_host ["id"; "payload"])) = Err SqlError.
Proof. vm_compute. repeat split. Qed.
Example C74_ex :
  fst (runs (setup_db ["q.sqlite"]) host0) = Ok tt
  /\ node_at (h_tree (snd (runs (setup_db ["q.sqlite"]) host0))) ["q.sqlite"] = Some (NDb db3).
Proof. vm_compute. split; reflexivity. Qed.

(** A database whose creation was interrupted after the first table has version 0, and an
    interrupted init can leave an empty settings file. *)
Example C74_cut_ex :
  match node_at (h_tree (snd (cut 3 (setup_db ["q.sqlite"]) host0))) ["q.sqlite"] with
  | Some (NDb d) => db_version d = 0%Z /\ map fst (db_tables d) = ["queue"]
  | _ => False
  end
  /\ node_at (h_tree (snd (cut 4 (init app1 dat1 log1 "S" "D") host0))) (settings_file app1) = Some (NFile "").
Proof. vm_compute. auto. Qed.

(** ** C76: tomato start *)

Definition nospawn (o : sop) : Prop := match o with USpawn _ _ => False | _ => True end.
Lemma run_nospawn {A} (p : spgm A) : all_ops nospawn p -> forall h, 
  h_spawned (snd (runs p h)) = h_spawned h /\ h_ports (snd (runs p h)) = h_ports h.
Proof.
  unfold runs. induction p as [a|e|o k IH]; intros H h; cbn [run]; auto.
  destruct H as [N K]. assert (X : h_spawned (snd (sexec o h)) = h_spawned h /\ h_ports (snd (sexec o h)) = h_ports h).
  { destruct o; cbn in *; auto.
    - destruct (mkdirs (h_tree h) [] p); auto.
    - destruct (node_at (h_tree h) p) as [[]|]; auto. destruct (node_at (h_tree h) (removelast p)) as [[]|]; auto.
    - destruct (node_at (h_tree h) p) as [[]|]; auto.
    - destruct (db_at (h_tree h) p); auto.
    - destruct (db_at (h_tree h) p); auto.
    - destruct (db_at (h_tree h) p) as [d|]; auto. destruct (sql s d); auto.
    - destruct N. }
  destruct (sexec o h) as [r h'] eqn:E. cbn [snd] in X. destruct X as [<- <-]. apply IH. apply K.
Qed.
Lemma setup_nospawn p : all_ops nospawn (setup_db p).
Proof.
  assert (A : forall o, nospawn o -> all_ops nospawn (sact o)).
  { intros o N. split; [exact N|]. intros [a|e]; exact I. }
  assert (U : forall f v, all_ops nospawn (upgrade f p v)).
  { induction f as [|f IH]; intros v; [exact I|]. cbn [upgrade]. destruct (v <? 3)%Z; [|exact I].
    apply all_ops_bind; [|intros _; apply all_ops_bind; [|intros _; apply all_ops_bind; [apply A; exact I | exact IH]]].
    - destruct (v =? 1)%Z; [|exact I]. repeat (apply all_ops_bind; [apply A; exact I | intros _]). apply A. exact I.
    - destruct (v =? 2)%Z; [|exact I]. repeat (apply all_ops_bind; [apply A; exact I | intros _]). apply A. exact I. }
  unfold setup_db, connect_db. apply all_ops_bind.
  - apply all_ops_bind; [apply A; exact I|]. intros [|]; [exact I | apply A; exact I].
  - intros _. apply all_ops_bind; [apply A; exact I|]. intros [|].
    + apply all_ops_bind; [apply A; exact I|]. intros v. apply all_ops_bind; [|intros _; apply U].
      unfold assertP. destruct (v =? 3)%Z; exact I.
    + repeat (apply all_ops_bind; [apply A; exact I | intros _]). apply A. exact I.
Qed.

(** A start spawns at most one daemon, with the given port and settings, and only if the
    port is free, the settings file exists and the database of the settings could be set
    up; otherwise none. *)
Theorem C76_partial dbpath port appdir h r h' :
  runs (start dbpath port appdir) h = (r, h') ->
  h_spawned h' = h_spawned h
  \/ (r = Ok true /\ h_spawned h' = (h_spawned h ++ [(port, appdir)])%list /\ memZ port (h_ports h) = false
      /\ exists text db h1, node_at (h_tree h) (settings_file appdir) = Some (NFile text)
          /\ dbpath text = Ok db /\ runs (setup_db db) h = (Ok tt, h1) /\ h_tree h' = h_tree h1).
Proof.
  unfold runs, start. cbn [run sexec]. destruct (memZ port (h_ports h)) eqn:M.
  { cbn. intros [= <- <-]. left. reflexivity. }
  cbn [sact do bind run sexec]. destruct (is_some (node_at (h_tree h) (settings_file appdir))) eqn:S; cbn [bind].
  2: { cbn. intros [= <- <-]. left. reflexivity. }
  cbn [sact do bind run sexec]. destruct (node_at (h_tree h) (settings_file appdir)) as [[|text|d]|] eqn:N; cbn [bind run].
  1,3,4: intros [= <- <-]; left; reflexivity.
  destruct (dbpath text) as [db|e] eqn:DB; cbn [lift bind run]; [|intros [= <- <-]; left; reflexivity].
  rewrite run_bind. pose proof (run_nospawn _ (setup_nospawn db) h) as [SP PO]. unfold runs in *.
  destruct (run sexec (setup_db db) h) as [[[]|e] h1] eqn:R; cbn [snd] in *.
  - cbn. intros [= <- <-]. right. cbn. rewrite SP. split; [reflexivity|]. split; [reflexivity|]. split; [reflexivity|].
    exists text, db, h1. auto.
  - intros [= <- <-]. left. exact SP.
Qed.
Print Assumptions C76_partial.
(** It gives up, without touching anything, exactly if the port is in use or the settings are
    missing. *)
Theorem C76_refuses dbpath port appdir h :
  (memZ port (h_ports h) = true \/ node_at (h_tree h) (settings_file appdir) = None ->
   runs (start dbpath port appdir) h = (Ok false, h)) /\
  (fst (runs (start dbpath port appdir) h) = Ok false ->
   memZ port (h_ports h) = true \/ node_at (h_tree h) (settings_file appdir) = None).
Proof.
  unfold runs, start. cbn [run sexec]. destruct (memZ port (h_ports h)) eqn:M; [cbn; auto|].
  cbn [sact do bind run sexec]. destruct (node_at (h_tree h) (settings_file appdir)) as [nd|] eqn:N; cbn [is_some bind]; [|cbn; auto].
  split; [intros [X|X]; discriminate|]. cbn [sact do bind run sexec]. rewrite N.
  destruct nd as [|text|d]; cbn [bind run]; try discriminate.
  destruct (dbpath text) as [db|e]; cbn [lift bind run]; [|discriminate].
  rewrite run_bind. destruct (run sexec (setup_db db) h) as [[[]|e] h1]; [|discriminate].
  cbn. discriminate.
Qed.
Print Assumptions C76_refuses.
(** Nothing keeps two daemons from managing the same database: with another port, a second
    start spawns a second daemon for it. *)
Definition rd (_ : string) : res path := Ok ["data"; "Jobs"; "dbpath.sqlite"].
Theorem C76_refuted :
  exists h1 h2 h3, runs (init app1 dat1 log1 "S" "D") host0 = (Ok true, h1)
    /\ runs (start rd 1234 app1) h1 = (Ok true, h2)
    /\ runs (start rd 1235 app1) (mkHost (h_tree h2) [1234%Z] (h_spawned h2)) = (Ok true, h3)
    /\ h_spawned h3 = [(1234%Z, app1); (1235%Z, app1)].
Proof.
  do 3 eexists. split; [vm_compute; reflexivity|]. split; [vm_compute; reflexivity|]. split; vm_compute; reflexivity.
Qed.
Print Assumptions C76_refuted.
(** Where init puts its files. *)
Example C76_files :
  (settings_file ["etc"; "tomato"], devices_file ["etc"; "tomato"], default_db ["var"])
  = (["etc"; "tomato"; "settings.toml"], ["etc"; "tomato"; "devices.yml"], ["var"; "Jobs"; "dbpath.sqlite"]).
Proof. reflexivity. Qed.
Example C76_ex :
  fst (runs (start rd 1234 app1) host0) = Ok false
  /\ fst (runs (start rd 1234 app1) (mkHost [] [1234%Z] [])) = Ok false.
Proof. vm_compute. split; reflexivity. Qed.
