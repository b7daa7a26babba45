(** * P_Whom: whom requests are sent to (C118) *)
From Coq Require Import List String Ascii ZArith Bool.
From Verif Require Import Base PyStr Types ConfigModel Prog World Replies CmdModel KetchupModel
  TomatoModel JobModel PipModel DrvModel SysModel SpecSys SpecForce SpecStatus SpecWhom SysProofs2 SysProofs26
  SysPlay ExWorld.
Import ListNotations.
Open Scope string_scope.
Open Scope Z_scope.

(** ** C118: requests about a component go to a process of its driver *)

(** In every execution, every request sent by the daemon is proper in the sense of SpecWhom: questions
    about a component and its resets go to a port of the driver of that component, validations are about
    tasks of recorded jobs, and everything else that is sent is for the driver as a whole and goes to a port of a driver. *)
Theorem C118_proper : forall w ls s, runs ls (start_sys w) = Some s ->
  forall port c, In (port, c) (requests (s_world s)) ->
  In (port, c) (requests w) \/ proper w ls (s_world s) port c.
Proof.
  intros w ls s H port c Hin.
  assert (X : forall w, In (port, c) (requests w) <-> In (EvRequest port c) (w_log w)).
  { intros v. unfold requests. rewrite in_flat_map. split.
    - intros ([] & Hx & Hy); cbn in Hy; try contradiction. destruct Hy as [Hy|[]]. injection Hy as <- <-. exact Hx.
    - intros Hx. eexists. split; [exact Hx|]. left. reflexivity. }
  apply X in Hin. rewrite X. exact (C118_lemma w ls s H port c Hin).
Qed.
Print Assumptions C118_proper.

(** Hence, after a start without requests and recorded ports, what is sent about a component goes
    to a port that a process started for its driver announced under that very name. *)
Theorem C118_announced : forall w ls s, runs ls (start_sys w) = Some s ->
  requests w = [] -> (forall d, In d (w_drvs w) -> dv_port d = None) ->
  forall port c addr ch, In (port, c) (requests (s_world s)) ->
  c = CCapabilities addr ch \/ c = CReset addr ch \/ (exists t, c = CValidate t addr ch) ->
  exists st df cn cmp, read_from w ls st df /\ dget (df_components df) cn = Some cmp /\
    c_address cmp = addr /\ c_channel cmp = ch /\
    (has_char "'" (c_driver cmp) = false -> exists pid ver, In (LDriver (c_driver cmp) port pid ver true) ls).
Proof.
  intros w ls s H N D port c addr ch Hin Hc.
  destruct (C118_proper w ls s H port c Hin) as [X|X]; [rewrite N in X; destruct X|].
  assert (Y : exists P, about w ls P addr ch port).
  { destruct Hc as [->|[->|(t & ->)]]; cbn in X; [eauto|eauto|]. destruct X as [X _]. eauto. }
  destruct Y as (P & st & df & pn & pip & role & cn & cmp & H1 & _ & _ & _ & H2 & H3 & H4 & H5).
  exists st, df, cn, cmp. split; [exact H1|]. split; [exact H2|]. split; [exact H3|]. split; [exact H4|].
  intros Hq. destruct H5 as [(d & Hd & _ & Hp)|(n & pid & ver & Hl & El)].
  - rewrite (D d Hd) in Hp. discriminate.
  - apply sql_lit_plain in El; [|exact Hq]. subst n. eauto.
Qed.
Print Assumptions C118_announced.

(** The two drivers of the example are asked about their own components. *)
Example C118_ex :
  plays (exs_running 3) exw_init = true /\ requests exw_init = [] /\ w_drvs exw_init = [] /\
  In (7001, CCapabilities "addr1" "2") (requests (s_world (played (exs_running 3) exw_init))) /\
  In (7002, CCapabilities "addr2" "10") (requests (s_world (played (exs_running 3) exw_init))) /\
  In (LDriver "example_counter" 7001 71 "2.1" true) (fst (play (exs_running 3) (start_sys exw_init))) /\
  In (LDriver "psutil" 7002 72 "2.1" true) (fst (play (exs_running 3) (start_sys exw_init))).
Proof. vm_compute. repeat split; repeat (first [left; reflexivity|right]). Qed.

(** The port need not be that driver's any more: if the process of a driver ends and another driver gets
    its port, requests are sent to the latter until the former was started again. *)
Definition c118_reused : list cue :=
  (exs_base ++ [At (LDriver "psutil" 7001 73 "2.1" true); Finish 9] ++ exs_pass 3)%list.
Example C118_reused :
  plays c118_reused exw_init = true /\
  In (7001, CCapabilities "addr1" "2") (requests (s_world (played c118_reused exw_init))) /\
  In (7001, CCapabilities "addr2" "10") (requests (s_world (played c118_reused exw_init))).
Proof. vm_compute. repeat split; repeat (first [left; reflexivity|right]). Qed.
