(** * WorldFacts: lemmas about tables and operations *)
From Coq Require Import List String Ascii ZArith Bool Lia Sorted.
From Verif Require Import Base BaseFacts PyStr Types ConfigModel Prog ProgFacts World.
Import ListNotations.
Open Scope Z_scope.

(** ** Jobs *)
Lemma set_jcol_id j c : j_id (set_jcol j c) = j_id j.
Proof. destruct c; reflexivity. Qed.

Lemma set_jcols_id cs : forall j, j_id (set_jcols cs j) = j_id j.
Proof.
  unfold set_jcols. induction cs as [|c cs IH]; intros j; cbn; auto.
  rewrite IH. apply set_jcol_id.
Qed.

Lemma upd_jobs_ids id cs l : map j_id (upd_jobs id cs l) = map j_id l.
Proof.
  unfold upd_jobs. rewrite map_map. apply map_ext. intros j.
  destruct (Z.eqb (j_id j) id); auto. apply set_jcols_id.
Qed.

Lemma get_job_In l id j : get_job l id = Some j -> In j l /\ j_id j = id.
Proof. intros H. apply find_some in H as [H E]. apply Z.eqb_eq in E. auto. Qed.

Lemma get_job_None l id : get_job l id = None <-> ~ In id (map j_id l).
Proof.
  unfold get_job. induction l as [|j l IH]; cbn; [intuition|].
  destruct (Z.eqb_spec (j_id j) id).
  - split; [discriminate|]. intros H. exfalso. auto.
  - rewrite IH. intuition.
Qed.

Lemma In_get_job l j : NoDup (map j_id l) -> In j l -> get_job l (j_id j) = Some j.
Proof.
  unfold get_job. induction l as [|a l IH]; cbn; intros Hn H; [contradiction|].
  inversion Hn as [|? ? Hni Hnd]; subst. destruct H as [->|H].
  - now rewrite Z.eqb_refl.
  - destruct (Z.eqb_spec (j_id a) (j_id j)) as [E|]; auto.
    exfalso. apply Hni. rewrite E. now apply in_map.
Qed.

Lemma get_job_upd l id cs i :
  get_job (upd_jobs id cs l) i =
  if Z.eqb i id then option_map (set_jcols cs) (get_job l i) else get_job l i.
Proof.
  unfold get_job, upd_jobs. induction l as [|j l IH]; cbn.
  - now destruct (Z.eqb i id).
  - destruct (Z.eqb_spec (j_id j) id) as [E|E]; cbn.
    + rewrite set_jcols_id. destruct (Z.eqb_spec (j_id j) i) as [E'|E'].
      * replace (Z.eqb i id) with true by (symmetry; apply Z.eqb_eq; lia). reflexivity.
      * exact IH.
    + destruct (Z.eqb_spec (j_id j) i) as [E'|E'].
      * replace (Z.eqb i id) with false by (symmetry; apply Z.eqb_neq; lia). reflexivity.
      * exact IH.
Qed.

Lemma get_job_app l j i :
  get_job (l ++ [j]) i =
  match get_job l i with Some x => Some x | None => if Z.eqb (j_id j) i then Some j else None end.
Proof.
  unfold get_job. induction l as [|a l IH]; cbn; auto.
  destruct (Z.eqb (j_id a) i); auto.
Qed.

Lemma upd_jobs_nop id cs l : ~ In id (map j_id l) -> upd_jobs id cs l = l.
Proof.
  unfold upd_jobs. induction l as [|j l IH]; cbn; intros H; auto.
  rewrite IH by auto. destruct (Z.eqb_spec (j_id j) id); auto. exfalso; auto.
Qed.

(** ** Pipelines *)
Lemma set_pcol_name p c : p_name (set_pcol p c) = p_name p.
Proof. destruct c; reflexivity. Qed.

Lemma set_pcols_name cs : forall p, p_name (set_pcols cs p) = p_name p.
Proof.
  unfold set_pcols. induction cs as [|c cs IH]; intros p; cbn; auto.
  rewrite IH. apply set_pcol_name.
Qed.

Lemma upd_pips_names n cs l : map p_name (upd_pips n cs l) = map p_name l.
Proof.
  unfold upd_pips. rewrite map_map. apply map_ext. intros p.
  destruct (String.eqb (p_name p) n); auto. apply set_pcols_name.
Qed.

Lemma get_pip_In l n p : get_pip l n = Some p -> In p l /\ p_name p = n.
Proof. intros H. apply find_some in H as [H E]. apply String.eqb_eq in E. auto. Qed.

Lemma get_pip_None l n : get_pip l n = None <-> ~ In n (map p_name l).
Proof.
  unfold get_pip. induction l as [|p l IH]; cbn; [intuition|].
  destruct (String.eqb_spec (p_name p) n).
  - split; [discriminate|]. intros H. exfalso. auto.
  - rewrite IH. intuition.
Qed.

Lemma In_get_pip l p : NoDup (map p_name l) -> In p l -> get_pip l (p_name p) = Some p.
Proof.
  unfold get_pip. induction l as [|a l IH]; cbn; intros Hn H; [contradiction|].
  inversion Hn as [|? ? Hni Hnd]; subst. destruct H as [->|H].
  - now rewrite String.eqb_refl.
  - destruct (String.eqb_spec (p_name a) (p_name p)) as [E|]; auto.
    exfalso. apply Hni. rewrite E. now apply in_map.
Qed.

Lemma get_pip_upd l n cs i :
  get_pip (upd_pips n cs l) i =
  if String.eqb i n then option_map (set_pcols cs) (get_pip l i) else get_pip l i.
Proof.
  unfold get_pip, upd_pips. induction l as [|p l IH]; cbn.
  - now destruct (String.eqb i n).
  - destruct (String.eqb_spec (p_name p) n) as [E|E]; cbn.
    + rewrite set_pcols_name. destruct (String.eqb_spec (p_name p) i) as [E'|E'].
      * replace (String.eqb i n) with true by (symmetry; apply String.eqb_eq; congruence).
        reflexivity.
      * exact IH.
    + destruct (String.eqb_spec (p_name p) i) as [E'|E'].
      * replace (String.eqb i n) with false by (symmetry; apply String.eqb_neq; congruence).
        reflexivity.
      * exact IH.
Qed.

Lemma get_pip_app l p i :
  get_pip (l ++ [p]) i =
  match get_pip l i with
  | Some x => Some x
  | None => if String.eqb (p_name p) i then Some p else None
  end.
Proof.
  unfold get_pip. induction l as [|a l IH]; cbn; auto.
  destruct (String.eqb (p_name a) i); auto.
Qed.

Lemma upd_pips_nop n cs l : ~ In n (map p_name l) -> upd_pips n cs l = l.
Proof.
  unfold upd_pips. induction l as [|p l IH]; cbn; intros H; auto.
  rewrite IH by auto. destruct (String.eqb_spec (p_name p) n); auto. exfalso; auto.
Qed.

(** ** Drivers *)
Lemma set_dcol_name d c : dv_name (set_dcol d c) = dv_name d.
Proof. destruct c; reflexivity. Qed.

Lemma set_dcols_name cs : forall d, dv_name (set_dcols cs d) = dv_name d.
Proof.
  unfold set_dcols. induction cs as [|c cs IH]; intros d; cbn; auto.
  rewrite IH. apply set_dcol_name.
Qed.

Lemma upd_drvs_names n cs l : map dv_name (upd_drvs n cs l) = map dv_name l.
Proof.
  unfold upd_drvs. rewrite map_map. apply map_ext. intros p.
  destruct (String.eqb (dv_name p) n); auto. apply set_dcols_name.
Qed.

Lemma get_drv_In l n d : get_drv l n = Some d -> In d l /\ dv_name d = n.
Proof. intros H. apply find_some in H as [H E]. apply String.eqb_eq in E. auto. Qed.

Lemma get_drv_None l n : get_drv l n = None <-> ~ In n (map dv_name l).
Proof.
  unfold get_drv. induction l as [|p l IH]; cbn; [intuition|].
  destruct (String.eqb_spec (dv_name p) n).
  - split; [discriminate|]. intros H. exfalso. auto.
  - rewrite IH. intuition.
Qed.

Lemma In_get_drv l p : NoDup (map dv_name l) -> In p l -> get_drv l (dv_name p) = Some p.
Proof.
  unfold get_drv. induction l as [|a l IH]; cbn; intros Hn H; [contradiction|].
  inversion Hn as [|? ? Hni Hnd]; subst. destruct H as [->|H].
  - now rewrite String.eqb_refl.
  - destruct (String.eqb_spec (dv_name a) (dv_name p)) as [E|]; auto.
    exfalso. apply Hni. rewrite E. now apply in_map.
Qed.

Lemma get_drv_upd l n cs i :
  get_drv (upd_drvs n cs l) i =
  if String.eqb i n then option_map (set_dcols cs) (get_drv l i) else get_drv l i.
Proof.
  unfold get_drv, upd_drvs. induction l as [|p l IH]; cbn.
  - now destruct (String.eqb i n).
  - destruct (String.eqb_spec (dv_name p) n) as [E|E]; cbn.
    + rewrite set_dcols_name. destruct (String.eqb_spec (dv_name p) i) as [E'|E'].
      * replace (String.eqb i n) with true by (symmetry; apply String.eqb_eq; congruence).
        reflexivity.
      * exact IH.
    + destruct (String.eqb_spec (dv_name p) i) as [E'|E'].
      * replace (String.eqb i n) with false by (symmetry; apply String.eqb_neq; congruence).
        reflexivity.
      * exact IH.
Qed.

Lemma get_drv_app l p i :
  get_drv (l ++ [p]) i =
  match get_drv l i with
  | Some x => Some x
  | None => if String.eqb (dv_name p) i then Some p else None
  end.
Proof.
  unfold get_drv. induction l as [|a l IH]; cbn; auto.
  destruct (String.eqb (dv_name a) i); auto.
Qed.

(** ** SQL literals: a text without quotes stands for itself. *)
Lemma sql_lit_id s : has_char "'"%char s = false -> sql_lit s = Some s.
Proof.
  induction s as [|c s IH]; cbn [sql_lit has_char]; intros H; auto.
  apply orb_false_iff in H as [H1 H2]. rewrite (IH H2).
  destruct c as [[] [] [] [] [] [] [] []]; try reflexivity.
  discriminate H1.
Qed.

Lemma run_act o w : run exec (act o) w = exec o w.
Proof. apply run_do. Qed.

(** World extensionality for the setters. *)
Lemma set_daemon_same w d : w_daemon w = d -> set_daemon w d = w.
Proof. intros <-. destruct w; reflexivity. Qed.
Lemma set_jobs_same w l s : w_jobs w = l -> w_seq w = s -> set_jobs w l s = w.
Proof. intros <- <-. destruct w; reflexivity. Qed.
Lemma set_pips_same w l : w_pips w = l -> set_pips w l = w.
Proof. intros <-. destruct w; reflexivity. Qed.
Lemma set_drvs_same w l : w_drvs w = l -> set_drvs w l = w.
Proof. intros <-. destruct w; reflexivity. Qed.

(** The same for operations in tail position, at their reduced response type. *)
Lemma run_job_get id w : run exec (act (OJobGet id) : pgm job) w =
  (match get_job (w_jobs w) id with Some j => Ok j | None => Err TypeError end, w).
Proof. exact (run_act (OJobGet id) w). Qed.
Lemma run_pip_get n w : run exec (act (OPipGet n) : pgm (option pipstate)) w =
  (Ok (get_pip (w_pips w) n), w).
Proof. exact (run_act (OPipGet n) w). Qed.
Lemma run_drv_get n w : run exec (act (ODrvGet n) : pgm (option drvstate)) w =
  (Ok (get_drv (w_drvs w) n), w).
Proof. exact (run_act (ODrvGet n) w). Qed.
Lemma run_archive p j w : run exec (act (OArchive p j) : pgm unit) w =
  match w_merge w (j_id j) with
  | Some e => (Err e, w)
  | None => (Ok tt, add_event w (EvArchive p j))
  end.
Proof. cbn. destruct (w_merge w (j_id j)); reflexivity. Qed.
