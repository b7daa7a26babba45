(** * P_Announce: where the contact data of a driver come from (C116) *)
From Coq Require Import List String Ascii ZArith Bool.
From Verif Require Import Base PyStr Types ConfigModel Prog World Replies CmdModel KetchupModel
  TomatoModel JobModel PipModel DrvModel SysModel SpecQueue SpecSys SpecAnnounce SysProofs2 SysProofs24 SysPlay ExWorld.
Import ListNotations.
Open Scope string_scope.
Open Scope Z_scope.

(** ** C116: what is recorded about a driver is what its process announced *)

(** In every execution, the record of a driver names no process, or has the port, process and version
    it had before, or all three are those that one driver process of that name announced. *)
Theorem C116_contact : forall w ls s, runs ls (start_sys w) = Some s ->
  forall d, In d (w_drvs (s_world s)) -> silent d \/ known_before w d \/ announced ls d.
Proof.
  intros w ls s H d Hd. refine (proj1 (C116_lemma w ls s false _ H d Hd)). discriminate.
Qed.
Print Assumptions C116_contact.

(** Hence, after a start with records that name no process, requests only go to ports that were
    announced under that very name (if it has no quotes). *)
Theorem C116_port : forall w ls s, runs ls (start_sys w) = Some s ->
  (forall d, In d (w_drvs w) -> dv_port d = None) ->
  forall d port, In d (w_drvs (s_world s)) -> dv_port d = Some port -> has_char "'" (dv_name d) = false ->
  exists pid ver, In (LDriver (dv_name d) port pid ver true) ls /\ dv_pid d = Some pid /\ dv_version d = Some ver.
Proof.
  intros w ls s H N d port Hd Hp Hq. destruct (C116_contact w ls s H d Hd) as [(X & _)|[(d0 & H0 & _ & X & _)|X]].
  - congruence.
  - rewrite (N d0 H0) in X. congruence.
  - destruct X as (n & p & pid & ver & Hin & El & E1 & E2 & E3). apply sql_lit_plain in El; [|exact Hq].
    rewrite Hp in E1. injection E1 as <-. subst n. eauto.
Qed.
Print Assumptions C116_port.

(** In every execution, between zero and three starts are counted for every driver. *)
Theorem C116_few : forall w ls s, runs ls (start_sys w) = Some s -> few_starts w -> few_starts (s_world s).
Proof. intros w ls s H F d Hd. exact (proj2 (C116_lemma w ls s true (fun _ => F) H d Hd) eq_refl). Qed.
Print Assumptions C116_few.

(** Two drivers announce themselves, then a second process of one of them; a third process, whose
    interface cannot be created, does not. *)
Definition c116_script : list cue :=
  (exs_up ++ [At (LDriver "psutil" 7003 73 "2.0" true); Finish 6;
              At (LDriver "example_counter" 7004 74 "2.1" false); Finish 7])%list.
Example C116_ex :
  plays c116_script exw_init = true /\ w_drvs exw_init = [] /\
  map (fun d => (dv_name d, dv_port d, dv_pid d, dv_version d)) (w_drvs (s_world (played c116_script exw_init))) =
    [("example_counter", Some 7001, Some 71, Some "2.1"); ("psutil", Some 7003, Some 73, Some "2.0")].
Proof. vm_compute. repeat split. Qed.
