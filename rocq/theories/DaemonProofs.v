(** * DaemonProofs: proofs about the main loop of the daemon (C40, C41) *)
From Coq Require Import List String ZArith Bool Lia.
From Verif Require Import Base BaseFacts Types ConfigModel Prog ProgFacts World WorldFacts Replies CmdModel
  CmdProofs DaemonModel SpecMsg.
Import ListNotations.
Open Scope string_scope.

Lemma busy_idle w : busy w = [] <-> idle w.
Proof.
  split.
  - intros H p Hp. destruct (p_jobid p) as [i|] eqn:E; [|reflexivity].
    assert (X : In p (busy w)) by (apply busy_In; eauto). rewrite H in X. destruct X.
  - intros H. destruct (busy w) as [|p l] eqn:E; [reflexivity|].
    assert (X : In p (busy w)) by (rewrite E; now left). apply busy_In in X. destruct X as [Hp [i Hi]].
    rewrite (H p Hp) in Hi. discriminate.
Qed.

Lemma run_cmd_stop d w : w_daemon w = Some d ->
  exists r w', run exec (cmd_stop d) w = (Ok r, w') /\
   ((idle w /\ r_ok r = true /\ w' = set_daemon w (Some (with_status d Dstop))) \/
    (~ idle w /\ r_ok r = false /\ w' = w)).
Proof.
  intros Hd. unfold cmd_stop. rewrite run_bind, run_act. cbn [exec]. fold (busy w).
  destruct (busy w) as [|p l] eqn:E.
  - cbn [List.length Nat.ltb Nat.leb]. rewrite run_bind, run_act. cbn [exec]. rewrite Hd.
    do 2 eexists. split; [reflexivity|]. left. split; [apply busy_idle, E|]. auto.
  - cbn [List.length Nat.ltb Nat.leb]. do 2 eexists. split; [reflexivity|]. right.
    split; [|auto]. intros H. apply busy_idle in H. congruence.
Qed.

Lemma run_dispatch m ret w d : w_daemon w = Some d -> regular m ->
  (exists r w', run exec (dispatch m ret) w = (Ok r, w') /\ right_reply m w r w') \/
  (m = MsgCmd "reload" /\ exists e w', run exec (dispatch m ret) w = (Err e, w') /\
     run exec (cmd_reload d) w = (Err e, w')).
Proof.
  intros Hd Hm. destruct Hm as [->|[->|[->| ->]]]; unfold dispatch.
  - left. do 2 eexists. split; [reflexivity|]. cbn. auto.
  - left. rewrite run_bind, run_act. cbn [exec]. rewrite Hd. cbn [String.eqb Ascii.eqb Bool.eqb].
    do 2 eexists. split; [reflexivity|]. exists d. split; [exact Hd|]. left. auto.
  - left. rewrite run_bind, run_act. cbn [exec]. rewrite Hd.
    change (String.eqb "stop" "status") with false. change (String.eqb "stop" "stop") with true. cbn iota.
    destruct (run_cmd_stop d w Hd) as (r & w' & E & H). exists r, w'. split; [exact E|].
    exists d. split; [exact Hd|]. destruct H as [(H1 & H2 & H3)|(H1 & H2 & H3)]; auto 10.
  - rewrite run_bind, run_act. cbn [exec]. rewrite Hd.
    change (String.eqb "reload" "status") with false. change (String.eqb "reload" "stop") with false.
    change (String.eqb "reload" "reload") with true. cbn iota.
    destruct (run exec (cmd_reload d) w) as [[r|e] w'] eqn:E.
    + left. exists r, w'. split; [reflexivity|]. exists d. split; [exact Hd|]. auto 10.
    + right. split; [reflexivity|]. eauto.
Qed.

(** Any message keeps the daemon's status, except for an accepted stop. *)
Lemma dispatch_daemon m ret w d x w' : w_daemon w = Some d -> run exec (dispatch m ret) w = (x, w') ->
  exists d', w_daemon w' = Some d' /\
    (dm_status d' = dm_status d \/
     (m = MsgCmd "stop" /\ idle w /\ exists r, x = Ok r /\ r_ok r = true)).
Proof.
  intros Hd. unfold dispatch. destruct m as [|c].
  - intros E. injection E as _ <-. eauto.
  - rewrite run_bind, run_act. cbn [exec]. rewrite Hd.
    destruct (String.eqb_spec c "status") as [->|N1]; [intros E; injection E as _ <-; eauto|].
    destruct (String.eqb_spec c "stop") as [->|N2].
    { destruct (run_cmd_stop d w Hd) as (r & w1 & -> & H). intros E. injection E as <- <-.
      destruct H as [(H1 & H2 & ->)|(H1 & H2 & ->)]; [|eauto]. exists (with_status d Dstop).
      split; [reflexivity|]. right. eauto. }
    destruct (String.eqb_spec c "reload") as [->|N3].
    { rewrite run_cmd_reload, Hd. destruct (load_daemon _ _ _) as [nd|]; [|intros E; injection E as _ <-; eauto].
      destruct (reload_check _ _ _) as [[r|]|]; intros E; injection E as _ <-; [eauto| |eauto].
      eexists. split; [reflexivity|]. left. reflexivity. }
    destruct (mem c cmd_attrs); [intros E; injection E as _ <-; eauto|].
    destruct ret; intros E; injection E as _ <-; eauto.
Qed.

Lemma run_turn m alive st w d : w_daemon w = Some d ->
  (exists x w', (match m with
                 | None => x = (None, dl_ret st) /\ w' = w
                 | Some m => exists r, run exec (dispatch m (dl_ret st)) w = (Ok r, w') /\ x = (Some r, Some r)
                 end) /\
     exists d', w_daemon w' = Some d' /\
     (dm_status d' = dm_status d \/ (m = Some (MsgCmd "stop") /\ idle w /\ exists r, fst x = Some r /\ r_ok r = true)) /\
     run exec (turn_pgm m alive st) w =
       (Ok (fst x, match dm_status d' with
                   | Dstop => if any_mgr alive then Some (mkLoop (snd x) (mkMgrs false false false)) else None
                   | _ => Some (mkLoop (snd x) (dl_run st))
                   end), w')) \/
  (exists m' e w', m = Some m' /\ run exec (dispatch m' (dl_ret st)) w = (Err e, w') /\
     run exec (turn_pgm m alive st) w = (Err e, w')).
Proof.
  intros Hd. unfold turn_pgm. destruct m as [m|].
  - rewrite run_bind, run_bind. destruct (run exec (dispatch m (dl_ret st)) w) as [[r|e] w'] eqn:E.
    + left. exists (Some r, Some r), w'. split; [eauto|].
      destruct (dispatch_daemon m _ w d _ w' Hd E) as (d' & Hd' & Hs). exists d'. split; [exact Hd'|].
      split. { destruct Hs as [Hs|(-> & Hi & r' & Er & Ho)]; [auto|]. right. injection Er as <-. split; [reflexivity|]. split; [exact Hi|]. exists r. auto. }
      cbn [run]. rewrite run_bind, run_act. cbn [exec]. rewrite Hd'. destruct (dm_status d'); try reflexivity.
      destruct (any_mgr alive); reflexivity.
    + right. exists m, e, w'. auto.
  - left. exists (None, dl_ret st), w. split; [auto|]. exists d. split; [exact Hd|]. split; [auto|].
    rewrite run_bind. cbn [run]. rewrite run_bind, run_act. cbn [exec]. rewrite Hd.
    destruct (dm_status d); try reflexivity. destruct (any_mgr alive); reflexivity.
Qed.

(** ** C40 *)
Definition regular_turn (t : turn) : Prop := match tn_msg t with None => True | Some m => regular m end.

Lemma C40_lemma : forall l st w xs f, w_daemon w <> None -> Forall quiet l ->
  (forall t m, In t l -> tn_msg t = Some m -> regular m) ->
  serve l st w = (xs, f) ->
  Forall right_exchange xs /\
  match f with
  | Serving _ => map x_msg xs = map tn_msg l
  | Exited => exists l1 l2, l = (l1 ++ l2)%list /\ map x_msg xs = map tn_msg l1
  | Died e => exists l1 t l2 wb d w', l = (l1 ++ t :: l2)%list /\ map x_msg xs = map tn_msg l1 /\
      tn_msg t = Some (MsgCmd "reload") /\ w_daemon wb = Some d /\ run exec (cmd_reload d) wb = (Err e, w')
  end.
Proof.
  induction l as [|t l IH]; intros st w xs f Hd Hq Hr E; cbn [serve] in E.
  - injection E as <- <-. split; [constructor|reflexivity].
  - inversion Hq as [|t' l' Hqt Hql]; subst t' l'.
    assert (Hd0 : exists d, w_daemon (tn_env t w) = Some d).
    { rewrite Hqt. destruct (w_daemon w); [eauto|congruence]. }
    destruct Hd0 as [d Hd0].
    assert (Hrt : forall m, tn_msg t = Some m -> regular m) by (intros m; apply Hr; now left).
    destruct (run_turn (tn_msg t) (tn_alive t) st (tn_env t w) d Hd0) as
      [(x & w' & Hx & d' & Hd' & Hs & Et)|(m & e & w' & Em & Ed & Et)].
    + assert (Hex : right_exchange (mkExch (tn_msg t) (tn_env t w) (fst x) w' (tn_alive t))).
      { unfold right_exchange. cbn. destruct (tn_msg t) as [m|] eqn:Em.
        - destruct Hx as (r & Er & ->). cbn. destruct (run_dispatch m (dl_ret st) _ d Hd0 (Hrt m eq_refl)) as
            [(r' & w1 & E1 & H1)|(_ & e & w1 & E1 & _)].
          + rewrite E1 in Er. injection Er as <- <-. exact H1.
          + rewrite E1 in Er. discriminate.
        - destruct Hx as [-> ->]. reflexivity. }
      rewrite Et in E.
      assert (Hn : w_daemon w' <> None) by congruence.
      assert (Hr' : forall t m, In t l -> tn_msg t = Some m -> regular m) by (intros t' m Ht; apply Hr; now right).
      destruct (match dm_status d' with Dstop => _ | _ => _ end) as [st'|].
      * destruct (serve l st' w') as [xs' f'] eqn:E'. injection E as <- <-.
        destruct (IH st' w' xs' f' Hn Hql Hr' E') as [H1 H2]. split; [constructor; assumption|].
        destruct f' as [s|  |e].
        -- cbn. f_equal. exact H2.
        -- destruct H2 as (l1 & l2 & -> & H2). exists (t :: l1), l2. split; [reflexivity|]. cbn. f_equal. exact H2.
        -- destruct H2 as (l1 & t2 & l2 & wb & d2 & w2 & -> & H2 & H3). exists (t :: l1), t2, l2, wb, d2, w2.
           split; [reflexivity|]. split; [cbn; f_equal; exact H2|exact H3].
      * injection E as <- <-. split; [constructor; [exact Hex|constructor]|]. exists [t], l. auto.
    + rewrite Et in E. injection E as <- <-. split; [constructor|].
      destruct (run_dispatch m (dl_ret st) _ d Hd0 (Hrt m Em)) as [(r' & w1 & E1 & H1)|(-> & e' & w1 & E1 & H1)].
      * rewrite E1 in Ed. discriminate.
      * rewrite E1 in Ed. injection Ed as <- <-. exists [], t, l, (tn_env t w), d, w1. repeat split; auto.
Qed.

(** An unknown command is answered with the previous reply, or ends the daemon. *)
Lemma C40_unknown_lemma c st alive w d :
  w_daemon w = Some d -> c <> "status" -> c <> "stop" -> c <> "reload" ->
  (In c cmd_attrs -> run exec (turn_pgm (Some (MsgCmd c)) alive st) w = (Err TypeError, w)) /\
  (~ In c cmd_attrs ->
   (dl_ret st = None -> run exec (turn_pgm (Some (MsgCmd c)) alive st) w = (Err UnboundLocalError, w)) /\
   (forall r, dl_ret st = Some r -> exists n, run exec (turn_pgm (Some (MsgCmd c)) alive st) w = (Ok (Some r, n), w))).
Proof.
  intros Hd N1 N2 N3.
  assert (D : run exec (dispatch (MsgCmd c) (dl_ret st)) w =
    if mem c cmd_attrs then (Err TypeError, w) else
    match dl_ret st with Some r => (Ok r, w) | None => (Err UnboundLocalError, w) end).
  { unfold dispatch. rewrite run_bind, run_act. cbn [exec]. rewrite Hd.
    destruct (String.eqb_spec c "status"); [congruence|]. destruct (String.eqb_spec c "stop"); [congruence|].
    destruct (String.eqb_spec c "reload"); [congruence|]. destruct (mem c cmd_attrs); [reflexivity|].
    destruct (dl_ret st); reflexivity. }
  assert (T : forall e, run exec (dispatch (MsgCmd c) (dl_ret st)) w = (Err e, w) ->
    run exec (turn_pgm (Some (MsgCmd c)) alive st) w = (Err e, w)).
  { intros e E. unfold turn_pgm. rewrite run_bind, run_bind, E. reflexivity. }
  split.
  - intros H. apply mem_In in H. apply T. rewrite D, H. reflexivity.
  - intros H. assert (M : mem c cmd_attrs = false).
    { destruct (mem c cmd_attrs) eqn:M; [|reflexivity]. apply mem_In in M. contradiction. }
    rewrite M in D. split.
    + intros R. apply T. rewrite D, R. reflexivity.
    + intros r R. rewrite R in D.
      destruct (run_turn (Some (MsgCmd c)) alive st w d Hd) as
        [(x & w' & (r' & E' & ->) & d' & _ & _ & Et)|(m & e & w' & Em & Ed & _)].
      * rewrite R, D in E'. injection E' as <- <-. rewrite Et. cbn. eexists. reflexivity.
      * injection Em as <-. rewrite R, D in Ed. discriminate.
Qed.

(** ** C41 *)
Lemma C41_lemma : forall l st w xs f d, w_daemon w = Some d -> Forall quiet l ->
  serve l st w = (xs, f) -> f = Exited ->
  (dm_status d = Dstop \/
   exists x r, In x xs /\ x_msg x = Some (MsgCmd "stop") /\ idle (x_before x) /\ x_reply x = Some r /\ r_ok r = true) /\
  exists xs' x, xs = (xs' ++ [x])%list /\ any_mgr (x_alive x) = false /\
    (exists d', w_daemon (x_after x) = Some d' /\ dm_status d' = Dstop) /\
    forall y, In y xs' -> any_mgr (x_alive y) = true \/
      (exists d', w_daemon (x_after y) = Some d' /\ dm_status d' <> Dstop).
Proof.
  induction l as [|t l IH]; intros st w xs f d Hd Hq E F; cbn [serve] in E.
  - injection E as _ <-. discriminate.
  - inversion Hq as [|t' l' Hqt Hql]; subst t' l'.
    assert (Hd0 : w_daemon (tn_env t w) = Some d) by (rewrite Hqt; exact Hd).
    destruct (run_turn (tn_msg t) (tn_alive t) st (tn_env t w) d Hd0) as
      [(x & w' & Hx & d' & Hd' & Hs & Et)|(m & e & w' & Em & Ed & Et)].
    2:{ rewrite Et in E. injection E as _ <-. discriminate. }
    rewrite Et in E.
    set (ex := mkExch (tn_msg t) (tn_env t w) (fst x) w' (tn_alive t)) in *.
    assert (Hstop : dm_status d' = dm_status d \/
      (x_msg ex = Some (MsgCmd "stop") /\ idle (x_before ex) /\ exists r, x_reply ex = Some r /\ r_ok r = true)).
    { exact Hs. }
    assert (Hgo : forall st', (match dm_status d' with
        | Dstop => if any_mgr (tn_alive t) then Some (mkLoop (snd x) (mkMgrs false false false)) else None
        | _ => Some (mkLoop (snd x) (dl_run st)) end) = Some st' ->
        any_mgr (x_alive ex) = true \/ dm_status d' <> Dstop).
    { intros st' X. cbn. destruct (dm_status d'); try (right; discriminate).
      destruct (any_mgr (tn_alive t)); [auto|discriminate X]. }
    assert (Hend : (match dm_status d' with
        | Dstop => if any_mgr (tn_alive t) then Some (mkLoop (snd x) (mkMgrs false false false)) else None
        | _ => Some (mkLoop (snd x) (dl_run st)) end) = None ->
        any_mgr (x_alive ex) = false /\ dm_status d' = Dstop).
    { intros X. cbn. destruct (dm_status d'); try discriminate X. destruct (any_mgr (tn_alive t)); [discriminate X|auto]. }
    destruct (match dm_status d' with Dstop => _ | _ => _ end) as [st'|].
    + specialize (Hgo st' eq_refl). destruct (serve l st' w') as [xs' f'] eqn:E'. injection E as <- <-. subst f'.
      destruct (IH st' w' xs' Exited d' Hd' Hql E' eq_refl) as [H1 (ys & y & -> & H2 & H3 & H4)].
      split.
      * destruct H1 as [H1|(z & r & Hz & Hr)]; [|right; exists z, r; split; [right; exact Hz|exact Hr]].
        destruct Hstop as [Hs1|(S1 & S2 & r & S3 & S4)]; [left; congruence|].
        right. exists ex, r. split; [now left|]. auto.
      * exists (ex :: ys), y. split; [reflexivity|]. split; [exact H2|]. split; [exact H3|].
        intros z [<-|Hz]; [|auto]. destruct Hgo as [G|G]; [auto|]. right. exists d'. auto.
    + destruct (Hend eq_refl) as [H1 H2]. injection E as <- <-. split.
      * destruct Hstop as [Hs1|(S1 & S2 & r & S3 & S4)]; [left; congruence|].
        right. exists ex, r. split; [now left|]. auto.
      * exists [], ex. split; [reflexivity|]. split; [exact H1|]. split; [exists d'; auto|]. intros y [].
Qed.

Lemma C41_flags_gen : forall l st w xs st', serve l st w = (xs, Serving st') ->
  let stopped x := exists d, w_daemon (x_after x) = Some d /\ dm_status d = Dstop in
  (~ (exists x, In x xs /\ stopped x) -> dl_run st' = dl_run st) /\
  ((exists x, In x xs /\ stopped x) -> dl_run st' = mkMgrs false false false).
Proof.
  cbv zeta. induction l as [|t l IH]; cbn [serve]; intros st w xs st' E.
  { injection E as <- <-. split; [reflexivity|]. intros (x & [] & _). }
  destruct (w_daemon (tn_env t w)) as [d|] eqn:Hd.
  2:{ destruct (tn_msg t) as [[|c]|]; cbn in E; rewrite Hd in E; discriminate E. }
  destruct (run_turn (tn_msg t) (tn_alive t) st (tn_env t w) d Hd) as
    [(x & w' & _ & d' & Hd' & _ & Et)|(m & e & w' & _ & _ & Et)]; rewrite Et in E; [|discriminate E].
  assert (G : forall st1, let '(xs', f) := serve l st1 w' in
     (mkExch (tn_msg t) (tn_env t w) (fst x) w' (tn_alive t) :: xs', f) = (xs, Serving st') ->
     exists ys, xs = mkExch (tn_msg t) (tn_env t w) (fst x) w' (tn_alive t) :: ys /\ serve l st1 w' = (ys, Serving st')).
  { intros st1. destruct (serve l st1 w') as [ys f] eqn:E1. intros K. injection K as <- ->. eauto. }
  assert (D : dm_status d' = Dstop \/ dm_status d' <> Dstop) by (destruct (dm_status d'); auto; right; discriminate).
  destruct D as [D|D].
  - rewrite D in E. destruct (any_mgr (tn_alive t)); [|discriminate E].
    specialize (G (mkLoop (snd x) (mkMgrs false false false))). destruct (serve l _ w') as [ys f] eqn:E1.
    destruct (G E) as (ys' & -> & K). injection K as <- ->. destruct (IH _ _ _ _ E1) as [H1 H2]. cbn [dl_run] in H1.
    assert (F : dl_run st' = mkMgrs false false false).
    { destruct (List.Exists_dec (fun y => exists d, w_daemon (x_after y) = Some d /\ dm_status d = Dstop) ys) as [N|N].
      - intros y. destruct (w_daemon (x_after y)) as [dy|]; [|right; intros (? & K & _); discriminate K].
        destruct (dm_status dy) eqn:S; [right|right|left; eauto]; intros (? & K & S'); injection K as <-; congruence.
      - apply H2. apply Exists_exists in N. exact N.
      - apply H1. intros K. apply N. apply Exists_exists. exact K. }
    split; [|auto]. intros N. elim N. eexists. split; [left; reflexivity|]. cbn [x_after]. eauto.
  - replace (match dm_status d' with Dstop => _ | _ => _ end) with (Some (mkLoop (snd x) (dl_run st))) in E
      by (destruct (dm_status d'); [reflexivity|reflexivity|contradiction]).
    specialize (G (mkLoop (snd x) (dl_run st))). destruct (serve l _ w') as [ys f] eqn:E1.
    destruct (G E) as (ys' & -> & K). injection K as <- ->. destruct (IH _ _ _ _ E1) as [H1 H2]. cbn [dl_run] in H1.
    split.
    + intros N. apply H1. intros (y & Hy & K). apply N. exists y. split; [now right|exact K].
    + intros (y & [<-|Hy] & K); [|apply H2; eauto]. cbn [x_after] in K. destruct K as (d2 & K & S). congruence.
Qed.
Lemma C41_flags_lemma : forall l w xs st', serve l loop_start w = (xs, Serving st') ->
  let stopped x := exists d, w_daemon (x_after x) = Some d /\ dm_status d = Dstop in
  (~ (exists x, In x xs /\ stopped x) -> dl_run st' = mkMgrs true true true) /\
  ((exists x, In x xs /\ stopped x) -> dl_run st' = mkMgrs false false false).
Proof. intros l w xs st' E. exact (C41_flags_gen l loop_start w xs st' E). Qed.
