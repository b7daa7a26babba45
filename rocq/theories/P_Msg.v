(** * P_Msg: properties C40, C41 (main loop of the daemon), C42, C43 (retrying channel) *)
From Coq Require Import List String ZArith Bool.
From Verif Require Import Base Types ConfigModel Prog World Replies CmdModel DaemonModel SpecMsg
  DaemonProofs LppModel LppProofs ExWorld.
Import ListNotations.
Open Scope string_scope.
Open Scope Z_scope.

Definition all_alive : mgrs := mkMgrs true true true.
Definition calm (m : option dmsg) : turn := mkTurn (fun w => w) m all_alive.
Definition asks (l : list string) : list turn := map (fun c => calm (Some (MsgCmd c))) l.

(** ** C40 *)

(** False as stated.  An unknown command gets the reply to the previous request:
    a driver that has registered a component sends "component" to the daemon
    (driver.py:289) and gets a success. *)
Theorem C40_refuted :
  exists l w x1 x2 r f, Forall quiet l /\ w_daemon w <> None /\
    serve l loop_start w = ([x1; x2], f) /\ x_msg x2 = Some (MsgCmd "component") /\
    x_reply x2 = Some r /\ x_reply x1 = Some r /\ r_ok r = true.
Proof.
  exists (asks ["status"; "component"]), exw_up. do 4 eexists.
  split; [repeat constructor; intros w; reflexivity|]. split; [discriminate|].
  split; [vm_compute; reflexivity|]. repeat split; reflexivity.
Qed.
Print Assumptions C40_refuted.

(** Some requests end the daemon. *)
Theorem C40_ends_refuted :
  exists w, w_daemon w <> None /\
    serve (asks ["component"; "status"]) loop_start w = ([], Died UnboundLocalError) /\
    exists x, serve (asks ["status"; "logger"; "status"]) loop_start w = ([x], Died TypeError).
Proof.
  exists exw_up. split; [discriminate|]. split; [vm_compute; reflexivity|].
  eexists. vm_compute. reflexivity.
Qed.
Print Assumptions C40_ends_refuted.

(** What happens with an unknown command, in general; the names are those that the module
    of the commands imports or defines besides the commands. *)
Theorem C40_unknown :
  forall c st alive w d, w_daemon w = Some d -> c <> "status" -> c <> "stop" -> c <> "reload" ->
  let names := ["logging"; "drvdb"; "pipdb"; "Daemon"; "DrvState"; "PipState"; "Reply"; "logger"] in
  (In c names -> run exec (turn_pgm (Some (MsgCmd c)) alive st) w = (Err TypeError, w)) /\
  (~ In c names ->
   (dl_ret st = None -> run exec (turn_pgm (Some (MsgCmd c)) alive st) w = (Err UnboundLocalError, w)) /\
   (forall r, dl_ret st = Some r ->
      exists n, run exec (turn_pgm (Some (MsgCmd c)) alive st) w = (Ok (Some r, n), w))).
Proof. exact C40_unknown_lemma. Qed.
Print Assumptions C40_unknown.

(** With messages that have no command or one of the three commands, every
    message gets the right reply, and only a reload that raises ends the daemon. *)
Theorem C40_regular_partial :
  forall l st w xs f, w_daemon w <> None -> Forall quiet l ->
  (forall t m, In t l -> tn_msg t = Some m -> regular m) ->
  serve l st w = (xs, f) ->
  Forall right_exchange xs /\
  match f with
  | Serving _ => map x_msg xs = map tn_msg l
  | Exited => exists l1 l2, l = (l1 ++ l2)%list /\ map x_msg xs = map tn_msg l1
  | Died e => exists l1 t l2 wb d w', l = (l1 ++ t :: l2)%list /\ map x_msg xs = map tn_msg l1 /\
      tn_msg t = Some (MsgCmd "reload") /\ w_daemon wb = Some d /\ run exec (cmd_reload d) wb = (Err e, w')
  end.
Proof. exact C40_lemma. Qed.
Print Assumptions C40_regular_partial.

(** Jobs are running; nothing is disturbed by the messages. *)
Definition c40_turns : list turn :=
  (calm None :: calm (Some MsgNoCmd) :: asks ["stop"; "status"; "reload"; "status"])%list.
Example C40_case :
  w_daemon exw_up <> None /\ Forall quiet c40_turns /\
  (forall t m, In t c40_turns -> tn_msg t = Some m -> regular m) /\
  map (fun x => match x_reply x with Some r => Some (r_ok r) | None => None end)
    (fst (serve c40_turns loop_start exw_up)) =
  [None; Some false; Some false; Some true; Some true; Some true].
Proof.
  split; [discriminate|]. split; [repeat constructor; intros w; reflexivity|]. split; [|vm_compute; reflexivity].
  unfold regular. intros t m H E. cbn in H.
  repeat (destruct H as [<-|H]; [cbn in E; try discriminate E; injection E as <-; auto|]). destruct H.
Qed.

(** ** C41 *)

(** False as stated: an unknown command can end the daemon while its managers
    are alive and without a stop. *)
Theorem C41_refuted :
  exists w t d, w_daemon w = Some d /\ dm_status d = Drunning /\ quiet t /\
    tn_msg t = Some (MsgCmd "logger") /\ any_mgr (tn_alive t) = true /\
    serve [t] loop_start w = ([], Died TypeError).
Proof.
  exists exw_up, (calm (Some (MsgCmd "logger"))), exw_daemon.
  split; [vm_compute; reflexivity|]. split; [vm_compute; reflexivity|]. split; [intros w; reflexivity|].
  split; [reflexivity|]. split; vm_compute; reflexivity.
Qed.
Print Assumptions C41_refuted.

(** Otherwise the daemon leaves its loop only after a stop was accepted, in the
    first turn in which all managers have ended. *)
Theorem C41_exit_partial :
  forall l st w xs f d, w_daemon w = Some d -> Forall quiet l ->
  serve l st w = (xs, f) -> f = Exited ->
  (dm_status d = Dstop \/
   exists x r, In x xs /\ x_msg x = Some (MsgCmd "stop") /\ idle (x_before x) /\
     x_reply x = Some r /\ r_ok r = true) /\
  exists xs' x, xs = (xs' ++ [x])%list /\ any_mgr (x_alive x) = false /\
    (exists d', w_daemon (x_after x) = Some d' /\ dm_status d' = Dstop) /\
    forall y, In y xs' -> any_mgr (x_alive y) = true \/
      (exists d', w_daemon (x_after y) = Some d' /\ dm_status d' <> Dstop).
Proof. exact C41_lemma. Qed.
Print Assumptions C41_exit_partial.

(** The managers are told to go on until the daemon has status "stop" at the end of a turn,
    and then all of them are told to stop. *)
Theorem C41_flags :
  forall l w xs st', serve l loop_start w = (xs, Serving st') ->
  let stopped x := exists d, w_daemon (x_after x) = Some d /\ dm_status d = Dstop in
  (~ (exists x, In x xs /\ stopped x) -> dl_run st' = mkMgrs true true true) /\
  ((exists x, In x xs /\ stopped x) -> dl_run st' = mkMgrs false false false).
Proof. exact C41_flags_lemma. Qed.
Print Assumptions C41_flags.

(** The daemon answers a status request after the stop, then exits. *)
Definition c41_turns : list turn :=
  [ calm (Some (MsgCmd "status")); calm (Some (MsgCmd "stop"));
    mkTurn (fun w => w) (Some (MsgCmd "status")) (mkMgrs false true false);
    mkTurn (fun w => w) None (mkMgrs false false false); calm None ].
Example C41_case :
  exists d, w_daemon exw_started = Some d /\ Forall quiet c41_turns /\
  snd (serve c41_turns loop_start exw_started) = Exited /\
  map (fun x => match x_reply x with Some r => Some (r_ok r) | None => None end)
    (fst (serve c41_turns loop_start exw_started)) = [Some true; Some true; Some true; None].
Proof.
  eexists. split; [vm_compute; reflexivity|]. split; [repeat constructor; intros w; reflexivity|].
  split; vm_compute; reflexivity.
Qed.
Example C41_flags_case :
  match snd (serve (firstn 1 c41_turns) loop_start exw_started), snd (serve (firstn 3 c41_turns) loop_start exw_started) with
  | Serving a, Serving b => dl_run a = mkMgrs true true true /\ dl_run b = mkMgrs false false false
  | _, _ => False
  end.
Proof. vm_compute. repeat split. Qed.

(** ** C42 *)
Theorem C42_definite :
  forall A (srv : server A) n f s e, (1 <= n)%nat -> (n <= f)%nat ->
  exists x w', run (nexec srv) (comm f (Z.of_nat n)) (mkNet Fresh s e) = (Ok x, w') /\
    (n_sent w' - s <= n)%nat /\ (s <= n_sent w')%nat /\
    (forall a, x = Answer a <->
       exists i, (i < n)%nat /\ snd (srv (s + i)%nat) = Some a /\ n_sent w' = (s + i + 1)%nat /\
         forall k, (k < i)%nat -> snd (srv (s + k)%nat) = None) /\
    (x = Offline <-> forall k, (k < n)%nat -> snd (srv (s + k)%nat) = None) /\
    (n_sock w' <> Closed <-> exists a, x = Answer a).
Proof. exact @C42_lemma. Qed.
Print Assumptions C42_definite.

(** With a retry count below one and a silent server it never ends. *)
Theorem C42_unbounded :
  forall A (srv : server A), (forall k, snd (srv k) = None) -> forall f r s e, r <= 0 ->
  exists w', run (nexec srv) (comm f r) (mkNet Fresh s e) = (Err OutOfFuel, w') /\ n_sent w' = (s + f + 1)%nat.
Proof. exact @C42_unbounded_lemma. Qed.
Print Assumptions C42_unbounded.

(** The server misses one request, is too slow for the next, then answers. *)
Definition c42_server (k : nat) : bool * option string :=
  match k with 0%nat => (false, None) | 1%nat => (true, None) | _ => (true, Some "answer") end.
Example C42_case :
  run (nexec c42_server) (comm 3 3) (mkNet Fresh 0 0) = (Ok (Answer "answer"), mkNet Fresh 3 2) /\
  run (nexec c42_server) (comm 2 2) (mkNet Fresh 0 0) = (Ok Offline, mkNet Closed 2 1).
Proof. split; vm_compute; reflexivity. Qed.

(** ** C43 *)

(** False as stated: the request is sent again when the server is slow. *)
Theorem C43_refuted :
  exists (srv : server string) n a w', run (nexec srv) (comm n (Z.of_nat n)) (mkNet Fresh 0 0) = (Ok (Answer a), w') /\
    n_execs w' = 2%nat.
Proof. exists c42_server, 3%nat. do 2 eexists. split; vm_compute; reflexivity. Qed.
Print Assumptions C43_refuted.

(** It is executed at most as often as it is sent, and at most once by a server
    that drops the requests that it cannot answer in time. *)
Theorem C43_count_partial :
  forall A (srv : server A) n f s e, (1 <= n)%nat -> (n <= f)%nat ->
  exists x w', run (nexec srv) (comm f (Z.of_nat n)) (mkNet Fresh s e) = (Ok x, w') /\
    (n_execs w' - e <= n)%nat /\
    ((forall k, snd (srv k) = None -> fst (srv k) = false) -> (n_execs w' - e <= 1)%nat).
Proof. exact @C43_lemma. Qed.
Print Assumptions C43_count_partial.

Definition c43_server (k : nat) : bool * option string :=
  match k with 0%nat => (false, None) | _ => (true, Some "answer") end.
Example C43_case :
  (forall k, snd (c43_server k) = None -> fst (c43_server k) = false) /\
  run (nexec c43_server) (comm 3 3) (mkNet Fresh 0 0) = (Ok (Answer "answer"), mkNet Fresh 2 1).
Proof. split; [intros [|k] H; [reflexivity|discriminate]|vm_compute; reflexivity]. Qed.
