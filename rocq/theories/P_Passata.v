(** * P_Passata: the passata commands (C68, C75) *)
From Coq Require Import List String ZArith Bool Lia.
From Verif Require Import Base BaseFacts Types Prog ProgFacts PassataModel.
Import ListNotations.
Open Scope Z_scope.
Open Scope string_scope.

(** ** C68: running components are left alone without force *)

Definition idle_answer (a : res (option creply)) : Prop := a = Ok (Some (mkC true (CStatus false))).
Definition running_answer (a : res (option creply)) : Prop := a = Ok (Some (mkC true (CStatus true))).
(** The commands that change a component. *)
Inductive changing : Type := CSet (attr : string) (v : pyval) | CReset.
Definition change (name : string) (c : changing) (force : bool) : ppgm pret :=
  match c with CSet a v => set_attr name a v force | CReset => reset name force end.
Definition change_req (c : changing) (address channel : string) : creq :=
  match c with
  | CSet a v => mkQ "cmp_set_attr" address channel (Some a) (Some v)
  | CReset => mkQ "cmp_reset" address channel None None
  end.

(** All executions of a changing command without force. *)
Lemma change_cases name c e :
  let (r, l) := passata (change name c false) e in
  l = []
  \/ (exists st, l = [st] /\ q_cmd (s_req st) = "cmp_status" /\ ~ idle_answer (s_answer st)
        /\ (running_answer (s_answer st) -> r = Ok (PRefused KRunning))
        /\ forall a, r <> Ok (PPassed a))
  \/ (exists st ch, l = [st; ch] /\ q_cmd (s_req st) = "cmp_status" /\ idle_answer (s_answer st)
        /\ s_req ch = change_req c (q_address (s_req ch)) (q_channel (s_req ch))
        /\ (forall a, s_answer ch = Ok a -> r = Ok (PPassed a))).
Proof.
  destruct c as [a v|]; cbn [change change_req];
    unfold passata, set_attr, reset, with_cmp, name_to_cmp, running_or_force, status, simple, pass_on, ask, plain; cbn;
    unfold idle_answer, running_answer.
  all: destruct (e_daemon e 0) as [[d|]|ex]; cbn; try (left; reflexivity).
  all: destruct (dget d name) as [c|]; cbn; try (left; reflexivity).
  all: destruct (e_driver e 1 (c_driver c)) as [[[port|]|]|ex]; cbn; try (left; reflexivity).
  all: destruct (e_daemon e 2) as [[d2|]|ex]; cbn; try (left; reflexivity).
  all: destruct (dget d2 name) as [c2|]; cbn; try (left; reflexivity).
  all: destruct (e_driver e 3 (c_driver c2)) as [[[port2|]|]|ex]; cbn; try (left; reflexivity).
  all: set (q2 := mkQ "cmp_status" _ _ _ _).
  all: destruct (e_answer e 4 port2 q2) as [[[[|] []]|]|ex] eqn:E4; cbn.
  all: try (right; left; eexists; split; [reflexivity|]; split; [reflexivity|]; cbn; split;
            [intro X; discriminate X|]; split; [intro X; first [discriminate X | reflexivity] | intros ? X; discriminate X]).
  all: try (destruct running; cbn).
  all: try (right; left; eexists; split; [reflexivity|]; split; [reflexivity|]; cbn; split;
            [intro X; discriminate X|]; split; [intro X; first [discriminate X | reflexivity] | intros ? X; discriminate X]).
  all: try (destruct ex; cbn;
            (right; left; eexists; split; [reflexivity|]; split; [reflexivity|]; cbn; split;
            [intro X; discriminate X|]; split; [intro X; first [discriminate X | reflexivity] | intros ? X; discriminate X])).
  all: set (q5 := mkQ _ (c_address c) _ _ _);
       destruct (e_answer e 5 port q5) as [an|ex] eqn:E5; cbn; [|destruct ex; cbn];
       right; right; eexists; eexists; (split; [reflexivity|]); cbn; rewrite ?E4, ?E5;
       (split; [reflexivity|]); (split; [reflexivity|]); (split; [reflexivity|]); intros ? [=]; subst; reflexivity.
Qed.

(** Whatever the daemon, the table of drivers and the drivers answer: without force,
    a request to change a component is sent only directly after its driver reported that no
    task is running; if it reports a running task, the command is refused and nothing but
    the question has been sent. *)
Theorem C68 name c e r l :
  passata (change name c false) e = (r, l) ->
  (forall x, In x l -> q_cmd (s_req x) <> "cmp_status" ->
     exists st, l = [st; x] /\ q_cmd (s_req st) = "cmp_status" /\ idle_answer (s_answer st))
  /\ (forall st, In st l -> q_cmd (s_req st) = "cmp_status" -> running_answer (s_answer st) ->
        r = Ok (PRefused KRunning) /\ l = [st]).
Proof.
  intros H. pose proof (change_cases name c e) as K. rewrite H in K.
  assert (NS : forall a ch, q_cmd (change_req c a ch) <> "cmp_status") by (intros; destruct c; discriminate).
  destruct K as [->|[(st & -> & Q & NI & R & _)|(st & ch & -> & Q & I & E & _)]].
  - split; intros x [].
  - split.
    + intros x [<-|[]] N. contradiction.
    + intros x [<-|[]] _ A. auto.
  - split.
    + intros x [<-|[<-|[]]] N; [contradiction|]. eauto.
    + intros x [<-|[<-|[]]] Q2 A.
      * unfold idle_answer, running_answer in *. congruence.
      * exfalso. rewrite E in Q2. exact (NS _ _ Q2).
Qed.
Print Assumptions C68.

(** While the tables do not change, the question goes to the same port and component as
    the request. *)
Theorem C68_same name c e l r d drv :
  (forall n, e_daemon e n = Ok d) -> (forall n x, e_driver e n x = Ok (drv x)) ->
  passata (change name c false) e = (r, l) ->
  forall st ch, l = [st; ch] -> s_port st = s_port ch
    /\ q_address (s_req st) = q_address (s_req ch) /\ q_channel (s_req st) = q_channel (s_req ch).
Proof.
  intros D V. destruct c as [a v|]; cbn [change];
    unfold passata, set_attr, reset, with_cmp, name_to_cmp, running_or_force, status, simple, pass_on, ask, plain; cbn;
    rewrite !D; (destruct d as [d|]; cbn; [|intros [=]; subst; discriminate]);
    (destruct (dget d name) as [c|] eqn:G; cbn; [|intros [=]; subst; discriminate]);
    rewrite !V; (destruct (drv (c_driver c)) as [[port|]|] eqn:P; cbn; [|intros [=]; subst; discriminate ..]);
    rewrite !D; cbn; rewrite G; cbn; rewrite !V; cbn; rewrite P; cbn.
  all: set (q2 := mkQ "cmp_status" _ _ _ _).
  all: destruct (e_answer e 4 port q2) as [[[[|] []]|]|ex] eqn:E4; cbn; try (intros [=]; subst; discriminate).
  all: try (destruct running; cbn; try (intros [=]; subst; discriminate)).
  all: try (destruct ex; cbn; intros [=]; subst; discriminate).
  all: set (q5 := mkQ _ (c_address c) _ _ _).
  all: destruct (e_answer e 5 port q5) as [an|ex] eqn:E5; cbn; [|destruct ex; cbn].
  all: intros [= <- <-] st ch [= <- <-]; cbn; auto.
Qed.
Print Assumptions C68_same.

(** With force the request is sent without a question, and the driver's reply is returned. *)
Theorem C68_force name c e d cmp port :
  e_daemon e 0 = Ok (Some d) -> dget d name = Some cmp -> e_driver e 1 (c_driver cmp) = Ok (Some (Some port)) ->
  let q := change_req c (c_address cmp) (c_channel cmp) in
  let a := e_answer e 2 port q in
  snd (passata (change name c true) e) = [mkSent 2 port q a]
  /\ forall x, a = Ok x -> fst (passata (change name c true) e) = Ok (PPassed x).
Proof.
  intros D G V q a. subst q a.
  destruct c as [at' v|]; cbn [change change_req];
    unfold passata, set_attr, reset, with_cmp, name_to_cmp, running_or_force, pass_on, ask, plain; cbn;
    rewrite D; cbn; rewrite G; cbn; rewrite V; cbn.
  all: match goal with |- context [e_answer ?e0 2 ?po ?q] => destruct (e_answer e0 2 po q) as [an|ex] end; cbn;
       [|destruct ex; cbn]; split; try reflexivity; intros ? [=]; subst; reflexivity.
Qed.
Print Assumptions C68_force.

Definition cmps1 : dict component := [("psu", mkComponent "psu" "dev" "drv" "addr" "ch1")].
Definition env1 (answer : nat -> Z -> creq -> res (option creply)) : penv :=
  mkEnv (fun _ => Ok (Some cmps1)) (fun _ _ => Ok (Some (Some 5001))) answer.
(** A component that reports a running task. *)
Definition busy : penv := env1 (fun _ _ q =>
  Ok (Some (mkC true (if String.eqb (q_cmd q) "cmp_status" then CStatus true else CNone)))).
Example C68_ex :
  let '(r, l) := passata (set_attr "psu" "volt" (VInt 3) false) busy in
  (r, map (fun s => (s_port s, q_cmd (s_req s))) l) = (Ok (PRefused KRunning), [(5001, "cmp_status")])
  /\ let '(r, l) := passata (set_attr "psu" "volt" (VInt 3) true) busy in
     (r, map (fun s => (s_port s, q_cmd (s_req s))) l) = (Ok (PPassed (Some (mkC true CNone))), [(5001, "cmp_set_attr")]).
Proof. vm_compute. split; reflexivity. Qed.

(** The check and the change are two requests: a task may start in between, and the
    change then hits a running component. *)
Theorem C68_race :
  exists (e : penv) r st ch, passata (change "psu" CReset false) e = (r, [st; ch])
    /\ running_answer (e_answer e (s_time ch) (s_port ch) (s_req st))
    /\ r = Ok (PPassed (Some (mkC true CNone))).
Proof.
  exists (env1 (fun n _ q => Ok (Some (mkC true
    (if String.eqb (q_cmd q) "cmp_status" then CStatus (Nat.leb 5 n) else CNone))))).
  do 3 eexists. split; [reflexivity|]. split; reflexivity.
Qed.
Print Assumptions C68_race.

(** ** C75: whom a command talks to *)

(** The commands of passata. *)
Inductive pcmd : Type :=
| Simple (cmd : string) | Register | Change (c : changing) (force : bool) | Get (names : list string).
Definition command (name : string) (c : pcmd) : ppgm pret :=
  match c with
  | Simple cmd => simple cmd name
  | Register => register name
  | Change c f => change name c f
  | Get l => get_attrs name l
  end.
(** The tables as they are while the command runs, and the port of the named component's driver. *)
Definition steady (e : penv) (d : option (dict component)) (drv : string -> option (option Z)) : Prop :=
  (forall n, e_daemon e n = Ok d) /\ forall n x, e_driver e n x = Ok (drv x).

Lemma get_each_sends e port c names : forall acc n l r s,
  run (pexec e) (get_each port c names acc) (n, l) = (r, s) ->
  exists l', snd s = (l ++ l')%list
    /\ (forall x, In x l' -> s_port x = port /\ q_address (s_req x) = c_address c /\ q_channel (s_req x) = c_channel c)
    /\ exists k, map (fun x => (q_cmd (s_req x), q_attr (s_req x))) l' = map (fun a => ("cmp_get_attr", Some a)) (firstn k names).
Proof.
  induction names as [|a names IH]; intros acc n l r s H.
  - cbn in H. injection H as <- <-. exists []. rewrite app_nil_r. split; [reflexivity|]. split; [intros x []|]. exists 0%nat. reflexivity.
  - cbn [get_each] in H. unfold ask in H. cbn [bind run pexec fst snd] in H.
    set (q := mkQ "cmp_get_attr" (c_address c) (c_channel c) (Some a) None) in *.
    assert (One : forall s', (s' = (S n, (l ++ [mkSent n port q (e_answer e n port q)])%list)) -> exists l', snd s' = (l ++ l')%list
      /\ (forall x, In x l' -> s_port x = port /\ q_address (s_req x) = c_address c /\ q_channel (s_req x) = c_channel c)
      /\ exists k, map (fun x => (q_cmd (s_req x), q_attr (s_req x))) l' = map (fun a => ("cmp_get_attr", Some a)) (firstn k (a :: names))).
    { intros s' ->. eexists. split; [reflexivity|]. split; [intros x [<-|[]]; cbn; auto|]. exists 1%nat. reflexivity. }
    destruct (e_answer e n port q) as [[v|]|ex] eqn:E.
    + cbn [bind run] in H. destruct (c_ok v).
      * destruct (IH _ _ _ _ _ H) as (l' & E1 & E2 & k & E3).
        exists (mkSent n port q (Ok (Some v)) :: l'). split; [rewrite E1, <- app_assoc; reflexivity|]. split.
        { intros x [<-|I]; [cbn; auto | exact (E2 x I)]. }
        exists (S k). cbn [map firstn]. rewrite E3. reflexivity.
      * cbn in H. injection H as <- <-. apply One. reflexivity.
    + cbn in H. injection H as <- <-. apply One. reflexivity.
    + destruct ex; cbn in H; injection H as <- <-; apply One; reflexivity.
Qed.

(** Every request goes to the port recorded for the driver of the named component, and
    names the component by its address and channel. *)
Theorem C75 name c e d drv r l :
  steady e d drv -> passata (command name c) e = (r, l) ->
  forall x, In x l -> exists cmps cmp port, d = Some cmps /\ dget cmps name = Some cmp
    /\ drv (c_driver cmp) = Some (Some port) /\ s_port x = port
    /\ q_address (s_req x) = c_address cmp /\ q_channel (s_req x) = c_channel cmp.
Proof.
  intros [D V].
  destruct c as [cmd| |c f|names]; cbn [command].
  - unfold passata, simple, with_cmp, name_to_cmp, pass_on, ask, plain. cbn. rewrite !D.
    destruct d as [d|]; cbn; [|intros [= <- <-] x []]. destruct (dget d name) as [c|] eqn:G; cbn; [|intros [= <- <-] x []].
    rewrite !V. destruct (drv (c_driver c)) as [[port|]|] eqn:P; cbn; [|intros [= <- <-] x [] ..].
    match goal with |- context [e_answer ?e0 2 ?po ?q] => destruct (e_answer e0 2 po q) as [an|ex] end; cbn;
      [|destruct ex; cbn]; intros [= <- <-] x [<-|[]]; cbn; eauto 10.
  - unfold passata, register, name_to_cmp, pass_on, ask, plain. cbn. rewrite !D.
    destruct d as [d|]; cbn; [|intros [= <- <-] x []]. destruct (dget d name) as [c|] eqn:G; cbn; [|intros [= <- <-] x []].
    rewrite !V. destruct (drv (c_driver c)) as [[port|]|] eqn:P; cbn; [|intros [= <- <-] x [] ..].
    match goal with |- context [e_answer ?e0 2 ?po ?q] => destruct (e_answer e0 2 po q) as [an|ex] end; cbn;
      [|destruct ex; cbn]; intros [= <- <-] x [<-|[]]; cbn; eauto 10.
  - destruct f.
    + destruct c as [at' v|]; cbn [change];
        unfold passata, set_attr, reset, with_cmp, name_to_cmp, running_or_force, pass_on, ask, plain; cbn; rewrite !D;
        (destruct d as [d|]; cbn; [|intros [= <- <-] x []]); (destruct (dget d name) as [c|] eqn:G; cbn; [|intros [= <- <-] x []]);
        rewrite !V; (destruct (drv (c_driver c)) as [[port|]|] eqn:P; cbn; [|intros [= <- <-] x [] ..]);
        (match goal with |- context [e_answer ?e0 2 ?po ?q] => destruct (e_answer e0 2 po q) as [an|ex] end; cbn;
          [|destruct ex; cbn]; intros [= <- <-] x [<-|[]]; cbn; eauto 10).
    + destruct c as [at' v|]; cbn [change];
        unfold passata, set_attr, reset, with_cmp, name_to_cmp, running_or_force, status, simple, pass_on, ask, plain; cbn; rewrite !D;
        (destruct d as [d|]; cbn; [|intros [= <- <-] x []]); (destruct (dget d name) as [c|] eqn:G; cbn; [|intros [= <- <-] x []]);
        rewrite !V; (destruct (drv (c_driver c)) as [[port|]|] eqn:P; cbn; [|intros [= <- <-] x [] ..]);
        rewrite !D; cbn; rewrite G; cbn; rewrite !V; cbn; rewrite P; cbn.
      all: set (q2 := mkQ "cmp_status" _ _ _ _).
      all: destruct (e_answer e 4 port q2) as [[[[|] []]|]|ex] eqn:E4; cbn; try (intros [= <- <-] x [<-|[]]; cbn; eauto 10).
      all: try (destruct running; cbn; try (intros [= <- <-] x [<-|[]]; cbn; eauto 10)).
      all: try (destruct ex; cbn; intros [= <- <-] x [<-|[]]; cbn; eauto 10).
      all: set (q5 := mkQ _ (c_address c) _ _ _).
      all: destruct (e_answer e 5 port q5) as [an|ex] eqn:E5; cbn; [|destruct ex; cbn].
      all: intros [= <- <-] x [<-|[<-|[]]]; cbn; eauto 10.
  - unfold passata, get_attrs, with_cmp, name_to_cmp. cbn. rewrite !D.
    destruct d as [d|]; cbn; [|intros [= <- <-] x []]. destruct (dget d name) as [c|] eqn:G; cbn; [|intros [= <- <-] x []].
    rewrite !V. destruct (drv (c_driver c)) as [[port|]|] eqn:P; cbn; [|intros [= <- <-] x [] ..].
    destruct (run (pexec e) (get_each port c names []) (2%nat, [])) as [r' s'] eqn:R.
    destruct (get_each_sends _ _ _ _ _ _ _ _ _ R) as (l' & E1 & E2 & _). intros [= <- <-] x I.
    rewrite E1 in I. destruct (E2 x I) as (-> & -> & ->). eauto 10.
Qed.
Print Assumptions C75.

(** Attributes are asked for one by one, in the given order, up to the first failure. *)
Theorem C75_order name names e r l :
  passata (get_attrs name names) e = (r, l) ->
  exists k, map (fun x => (q_cmd (s_req x), q_attr (s_req x))) l = map (fun a => ("cmp_get_attr", Some a)) (firstn k names).
Proof.
  unfold passata, get_attrs, with_cmp, name_to_cmp. cbn.
  assert (Z : forall (r' : res pret), (r', @nil psent) = (r, l) ->
    exists k, map (fun x => (q_cmd (s_req x), q_attr (s_req x))) l = map (fun a => ("cmp_get_attr", Some a)) (firstn k names)).
  { intros r' [= <- <-]. exists 0%nat. reflexivity. }
  destruct (e_daemon e 0) as [[d|]|]; cbn; [|apply Z ..]. destruct (dget d name) as [c|]; cbn; [|apply Z].
  destruct (e_driver e 1 (c_driver c)) as [[[port|]|]|]; cbn; [|apply Z ..].
  destruct (run (pexec e) (get_each port c names []) (2%nat, [])) as [r' s'] eqn:R.
  destruct (get_each_sends _ _ _ _ _ _ _ _ _ R) as (l' & E1 & _ & k & E3). intros [= <- <-]. exists k.
  rewrite E1. exact E3.
Qed.
Print Assumptions C75_order.

(** Nothing is sent, and a failing reply returned, if the daemon does not run, does not
    know the component, or its driver has no port; except that register raises in the
    last case. *)
Theorem C75_refuses name c e d drv :
  steady e d drv ->
  (d = None \/ exists cmps, d = Some cmps
     /\ (dget cmps name = None \/ exists cmp, dget cmps name = Some cmp /\ drv (c_driver cmp) = Some None /\ c <> Register)) ->
  exists k, passata (command name c) e = (Ok (PRefused k), []).
Proof.
  intros [D V] H.
  assert (D0 := D 0%nat). assert (V1 := V 1%nat).
  destruct c as [cmd| |c f|names]; cbn [command]; [| |destruct c; cbn [change]|];
    unfold passata, simple, register, set_attr, reset, get_attrs, with_cmp, name_to_cmp; cbn; rewrite D0;
    (destruct H as [->|(cmps & -> & [N|(cmp & G & P & NR)])];
      [eexists; reflexivity | cbn; rewrite N; eexists; reflexivity | ]);
    cbn; rewrite G; cbn; rewrite V1, P; cbn; try (eexists; reflexivity); congruence.
Qed.
Print Assumptions C75_refuses.
(** Nothing is sent either if the driver of the component has no record; all commands then
    raise, and register also if the driver has no port. *)
Theorem C75_raises name c e cmps drv cmp :
  steady e (Some cmps) drv -> dget cmps name = Some cmp ->
  (drv (c_driver cmp) = None -> passata (command name c) e = (Err AssertionError, [])) /\
  (drv (c_driver cmp) = Some None -> passata (command name Register) e = (Err ZMQError, [])).
Proof.
  intros [D V] G. assert (D0 := D 0%nat). assert (V1 := V 1%nat). split; intros P.
  - destruct c as [cmd| |c f|names]; cbn [command]; [| |destruct c; cbn [change]|];
      unfold passata, simple, register, set_attr, reset, get_attrs, with_cmp, name_to_cmp; cbn; rewrite D0; cbn; rewrite G;
      cbn; rewrite V1, P; reflexivity.
  - unfold passata, command, register, with_cmp, name_to_cmp; cbn; rewrite D0; cbn; rewrite G; cbn; rewrite V1, P. reflexivity.
Qed.
Print Assumptions C75_raises.
Theorem C75_refuted :
  exists e : penv, passata (command "psu" Register) e = (Err ZMQError, []).
Proof. exists (mkEnv (fun _ => Ok (Some cmps1)) (fun _ _ => Ok (Some None)) (fun _ _ _ => Ok None)). reflexivity. Qed.
Print Assumptions C75_refuted.
Example C75_ex :
  let '(r, l) := passata (get_attrs "psu" ["a"; "b"; "c"]) (env1 (fun _ _ q =>
     match q_attr q with
     | Some "b" => Ok (Some (mkC false CNone))
     | _ => Ok (Some (mkC true (COther (VInt 1))))
     end)) in
  (r, map (fun s => (s_port s, q_channel (s_req s), q_attr (s_req s))) l)
  = (Ok (PPassed (Some (mkC false CNone))), [(5001, "ch1", Some "a"); (5001, "ch1", Some "b")]).
Proof. vm_compute. reflexivity. Qed.

(** What each command asks for: with a daemon that knows the component and a driver with a
    port, exactly one request is sent, with the name of the driver's method, and its answer
    is passed on; a timeout is reported as such. *)
Definition outcome (a : res (option creply)) : res pret :=
  match a with
  | Ok r => Ok (PPassed r)
  | Err ZMQError => Ok (PRefused KTimeout)
  | Err ZMQAgain => Ok (PRefused KTimeout)
  | Err x => Err x
  end.
Theorem C75_sends name e cmps drv cmp port :
  steady e (Some cmps) drv -> dget cmps name = Some cmp -> drv (c_driver cmp) = Some (Some port) ->
  (forall p cmd, In (p, cmd)
     [ (status name, "cmp_status"); (register name, "cmp_register"); (attrs name, "cmp_attrs");
       (capabilities name, "cmp_capabilities"); (constants name, "cmp_constants");
       (get_last_data name, "cmp_last_data"); (measure name, "cmp_measure"); (reset name true, "cmp_reset") ] ->
   let q := mkQ cmd (c_address cmp) (c_channel cmp) None None in
   passata p e = (outcome (e_answer e 2 port q), [mkSent 2 port q (e_answer e 2 port q)])) /\
  (forall attr v,
   let q := mkQ "cmp_set_attr" (c_address cmp) (c_channel cmp) (Some attr) (Some v) in
   passata (set_attr name attr v true) e = (outcome (e_answer e 2 port q), [mkSent 2 port q (e_answer e 2 port q)])).
Proof.
  intros [D V] G P. pose proof (D 0%nat) as D0. pose proof (V 1%nat (c_driver cmp)) as V1. rewrite P in V1.
  split.
  - intros p cmd I q. unfold q. clear q. cbn [In] in I.
    repeat (destruct I as [I|I]; [injection I as <- <-;
      unfold passata, status, register, attrs, capabilities, constants, get_last_data, measure, reset, running_or_force,
        simple, with_cmp, name_to_cmp, pass_on, ask, plain;
      cbn; rewrite D0; cbn; rewrite G; cbn; rewrite V1; cbn;
      destruct (e_answer e 2 port _) as [a|[]]; reflexivity|]).
    destruct I.
  - intros attr v q. unfold q, passata, set_attr, running_or_force, with_cmp, name_to_cmp, pass_on, ask.
    cbn. rewrite D0. cbn. rewrite G. cbn. rewrite V1. cbn.
    destruct (e_answer e 2 port _) as [a|[]]; reflexivity.
Qed.
Print Assumptions C75_sends.

(** Answers to the question for the status that are not of the expected form. *)
Example C68_odd_answers :
  let ends a := fst (passata (reset "psu" false) (env1 (fun _ _ _ => a))) in
  ends (Ok None) = Err AttributeError /\ ends (Ok (Some (mkC true CNoKey))) = Err KeyError /\
  ends (Ok (Some (mkC true (COther (VInt 1))))) = Err TypeError /\
  ends (Ok (Some (mkC true CNone))) = Ok (PRefused KInvalid) /\
  ends (Ok (Some (mkC false (CStatus false)))) = Ok (PRefused KInvalid) /\
  ends (Err ZMQAgain) = Ok (PRefused KInvalid).
Proof. repeat split; vm_compute; reflexivity. Qed.
