(** * CrateProofs: RO-crates (C90) *)
From Coq Require Import List String Ascii ZArith Bool Lia Arith.
From Verif Require Import Base PyStr BaseFacts Types ConfigModel Prog ProgFacts World WorldFacts Replies
  CmdModel KetchupModel JobModel CrateModel SpecQueue SpecJob SpecCrate KetchupProofs CmdProofs MatchProofs
  JobProofs SuperProofs.
Import ListNotations.
Open Scope string_scope.
Open Scope Z_scope.

Lemma ekey_eqb_spec a b : reflect (a = b) (ekey_eqb a b).
Proof.
  destruct a, b; cbn; try (constructor; congruence); destruct (String.eqb_spec s s0) || destruct (String.eqb_spec name name0);
    constructor; congruence.
Qed.
Lemma cr_get_put c k e k' : cr_get (cr_put c k e) k' = if ekey_eqb k k' then Some e else cr_get c k'.
Proof.
  induction c as [|[x y] c IH]; cbn; [reflexivity|].
  destruct (ekey_eqb_spec x k) as [->|N]; cbn.
  - destruct (ekey_eqb k k'); reflexivity.
  - rewrite IH. destruct (ekey_eqb_spec x k') as [->|N']; [|reflexivity].
    destruct (ekey_eqb_spec k k'); [congruence|reflexivity].
Qed.
Lemma cr_get_mod c k f k' : cr_get (cr_mod c k f) k' =
  if ekey_eqb k k' then option_map f (cr_get c k') else cr_get c k'.
Proof.
  unfold cr_mod. destruct (cr_get c k) as [e|] eqn:E.
  - rewrite cr_get_put. destruct (ekey_eqb_spec k k') as [<-|N]; [now rewrite E|reflexivity].
  - destruct (ekey_eqb_spec k k') as [<-|N]; [now rewrite E|reflexivity].
Qed.
Lemma ekey_refl k : ekey_eqb k k = true.
Proof. destruct (ekey_eqb_spec k k); congruence. Qed.

Ltac look := repeat (progress (repeat (rewrite cr_get_mod || rewrite cr_get_put); cbn [ekey_eqb option_map cr_get en_type en_parts en_author en_conforms ent app])).

(** What the crate holds under each identifier. *)
Lemma crate_at i dp u s b p c : to_rocrate i dp u s b = Some (p, c) ->
  i = true /\ p = crate_path dp /\
  cr_get c KRoot = Some (mkEnt EDataset [KFile (base_name dp)] None (Some (KNamed profile_uri))) /\
  (forall n, cr_get c (KFile n) =
     if String.eqb n (base_name dp) then Some (mkEnt (EFile dp) [] (Some (KNamed u)) None) else None) /\
  cr_get c KFresh = (if b then Some (mkEnt EObject [KRoot] None None) else None) /\
  (forall n, cr_get c (KNamed n) =
     if String.eqb n s then Some (mkEnt EObject [if b then KFresh else KRoot] None None)
     else if String.eqb n u then Some (ent EPerson)
     else if String.eqb n profile_uri then Some (ent EProfile) else None).
Proof.
  unfold to_rocrate. destruct i; cbn [negb]; [|discriminate]. cbv zeta. intros H.
  pose proof (f_equal (fun o => match o with Some x => fst x | None => p end) H) as E1.
  pose proof (f_equal (fun o => match o with Some x => snd x | None => c end) H) as E2.
  cbv beta iota in E1, E2. cbn [fst snd] in E1, E2. clear H. subst p c.
  split; [reflexivity|]. split; [reflexivity|].
  destruct b.
  - split; [|split; [|split]].
    + look. reflexivity.
    + intros n. look.
      rewrite String.eqb_sym. destruct (String.eqb _ _); reflexivity.
    + look. reflexivity.
    + intros n. look.
      rewrite (String.eqb_sym n s), (String.eqb_sym n u), (String.eqb_sym n profile_uri).
      destruct (String.eqb s n); [reflexivity|]. destruct (String.eqb u n); [reflexivity|]. reflexivity.
  - split; [|split; [|split]].
    + look. reflexivity.
    + intros n. look.
      rewrite String.eqb_sym. destruct (String.eqb _ _); reflexivity.
    + look. reflexivity.
    + intros n. look.
      rewrite (String.eqb_sym n s), (String.eqb_sym n u), (String.eqb_sym n profile_uri).
      destruct (String.eqb s n); [reflexivity|]. destruct (String.eqb u n); [reflexivity|]. reflexivity.
Qed.

Lemma crate_describes dp u s b p c : u <> s -> to_rocrate true dp u s b = Some (p, c) ->
  describes c dp (base_name dp) u s.
Proof.
  intros Hne H. apply crate_at in H as (_ & _ & H1 & H2 & H3 & H4). unfold describes. split; [|split; [|split; [|split]]].
  - rewrite H2, String.eqb_refl. eexists. split; [reflexivity|]. split; reflexivity.
  - rewrite H4. destruct (String.eqb_spec u s); [contradiction|]. rewrite String.eqb_refl.
    eexists. split; reflexivity.
  - rewrite H4, String.eqb_refl. eexists. split; reflexivity.
  - assert (R : part c KRoot (KFile (base_name dp))) by (eexists; split; [exact H1|now left]).
    destruct b.
    + apply B_more with KFresh; [eexists; split; [rewrite H4, String.eqb_refl; reflexivity|now left]|].
      apply B_more with KRoot; [eexists; split; [exact H3|now left]|]. now apply B_one.
    + apply B_more with KRoot; [eexists; split; [rewrite H4, String.eqb_refl; reflexivity|now left]|]. now apply B_one.
  - intros k e src G T. destruct k as [|n| |n].
    + rewrite H1 in G. injection G as <-. discriminate.
    + rewrite H4 in G. repeat match type of G with (if ?x then _ else _) = _ => destruct x end;
        try discriminate; injection G as <-; discriminate.
    + rewrite H3 in G. destruct b; [injection G as <-; discriminate|discriminate].
    + rewrite H2 in G. destruct (String.eqb_spec n (base_name dp)); [congruence|discriminate].
Qed.

(** Paths *)
Lemma substring_0_app s : forall t, substring 0 (String.length s) (s ++ t) = s.
Proof. induction s as [|c s IH]; intros t; cbn; [destruct t; reflexivity|]. now rewrite IH. Qed.
Lemma length_app s : forall t, String.length (s ++ t) = (String.length s + String.length t)%nat.
Proof. induction s as [|c s IH]; intros t; cbn; [reflexivity|]. now rewrite IH. Qed.
Lemma drop3_nc s : drop3 (s ++ ".nc") = s.
Proof.
  unfold drop3. rewrite length_app. cbn [String.length].
  replace (String.length s + 3 - 3)%nat with (String.length s) by lia. apply substring_0_app.
Qed.
Lemma app_inj_suffix s : forall t a b, String.length a = String.length b -> s ++ a = t ++ b -> s = t /\ a = b.
Proof.
  induction s as [|c s IH]; intros [|x t] a b L E; cbn in E.
  - auto.
  - subst a. cbn in L. rewrite length_app in L. lia.
  - subst b. cbn in L. rewrite length_app in L. lia.
  - injection E as -> E. destruct (IH t a b L E) as [-> ->]. auto.
Qed.

Lemma app_assoc_s a : forall b c : string, (a ++ b) ++ c = a ++ (b ++ c).
Proof. induction a as [|x a IH]; intros b c; cbn; [reflexivity|]. now rewrite IH. Qed.
Lemma path_join_ends a b : b <> "" -> exists x, path_join a (b ++ ".nc") = x ++ ".nc".
Proof.
  intros Hb. destruct b as [|c b]; [contradiction|]. cbn.
  destruct (Ascii.eqb c "/").
  - exists (String c b). reflexivity.
  - exists (a ++ "/" ++ String c b). now rewrite !app_assoc_s.
Qed.
Lemma res_path_ends out pl id : exists x, res_path out pl id = x ++ ".nc".
Proof.
  unfold res_path. destruct (pl_prefix pl) as [[|c p]|].
  - cbn. exists (out ++ "/"). now rewrite app_assoc_s.
  - apply path_join_ends. discriminate.
  - apply path_join_ends. cbn. discriminate.
Qed.

(** A crate that cannot be written. *)
Lemma job_crate_fails pid a w out j ok e : ja_repos a <> [] ->
  pl_outpath (ja_payload a) = Some out -> w_outdir w out = None ->
  get_job (w_jobs w) (ja_jobid a) = Some j -> w_main w (ja_jobid a) = Ok ok ->
  w_merge w (ja_jobid a) = None -> w_crate w (ja_jobid a) = Some e ->
  exists w', run exec (tomato_job pid a) w = (Err e, w') /\
    (exists jf, w_log w' = EvArchive (res_path out (ja_payload a) (ja_jobid a)) jf :: w_log w /\
       j_id jf = ja_jobid a /\ j_status jf = (if ok then Sc else Sce) /\ j_completed jf = Some (w_now w)) /\
    w_pips w' = w_pips w /\
    exists j', get_job (w_jobs w') (ja_jobid a) = Some j' /\ j_status j' = Sr /\ j_pid j' = Some pid /\
      j_completed j' = j_completed j.
Proof.
  intros Hr Eo Ed Ej Em Eg Ec. unfold tomato_job. rewrite run_bind, run_act. cbn [exec].
  rewrite run_bind, run_update_job_id. rewrite get_job_upd, Z.eqb_refl, Ej. cbn [option_map].
  rewrite Eo. rewrite run_bind, run_act. cbn [exec w_outdir set_jobs]. rewrite Ed.
  rewrite run_bind, run_update_job_id. cbn [w_jobs set_jobs w_seq]. rewrite upd_jobs_app.
  rewrite get_job_upd, Z.eqb_refl, Ej. cbn [option_map].
  assert (Eid : forall cs, j_id (set_jcols cs j) = ja_jobid a).
  { intros cs. rewrite set_jcols_id. now apply get_job_In in Ej. }
  set (j2 := set_jcols _ j). assert (E2 : j_id j2 = ja_jobid a) by apply Eid.
  assert (P2 : j_jobpath j2 = Some (job_path (ja_dir a))) by reflexivity.
  assert (R2 : j_respath j2 = Some (res_path out (ja_payload a) (ja_jobid a))) by reflexivity.
  clearbody j2.
  rewrite run_bind, run_act. cbn [exec w_main set_jobs]. rewrite E2, Em.
  rewrite run_bind, run_act. cbn [exec w_now set_jobs].
  rewrite run_bind. unfold merge_netcdfs. rewrite run_bind, run_assert.
  set (j3 := set_jcols _ j2).
  assert (E3 : j_id j3 = ja_jobid a) by (unfold j3; now rewrite set_jcols_id).
  assert (P3 : j_jobpath j3 = j_jobpath j2) by reflexivity.
  assert (R3 : j_respath j3 = j_respath j2) by reflexivity.
  assert (S3 : j_status j3 = if ok then Sc else Sce) by reflexivity.
  assert (C3 : j_completed j3 = Some (w_now w)) by reflexivity.
  clearbody j3. rewrite P3, P2, R3, R2. cbn [is_some].
  rewrite run_archive. cbn [w_merge set_jobs]. rewrite E3, Eg.
  rewrite run_bind. destruct (ja_repos a) as [|r rs]; [contradiction|].
  cbn [run act do exec w_crate add_event set_jobs]. rewrite E2, Ec.
  eexists. split; [reflexivity|]. split; [exists j3; split; [reflexivity|]; auto|]. split; [reflexivity|].
  cbn [w_jobs add_event set_jobs]. rewrite get_job_upd, Z.eqb_refl, Ej. cbn [option_map].
  eexists. split; [reflexivity|]. repeat split.
Qed.

Lemma repos_asked d j pname : ja_repos (job_args d j pname) <> [] <-> asks_repository d (j_payload j).
Proof.
  unfold job_args, asks_repository. cbn [ja_repos].
  assert (G : forall l, filter (fun r => mem r (pl_repos (j_payload j))) l <> [] <-> exists r, In r (pl_repos (j_payload j)) /\ In r l).
  { intros l. split.
    - intros H. destruct (filter _ l) as [|r rs] eqn:E; [contradiction|].
      assert (In r (filter (fun r => mem r (pl_repos (j_payload j))) l)) as K by (rewrite E; now left).
      apply filter_In in K as [K1 K2]. apply mem_In in K2. eauto.
    - intros (r & H1 & H2) E. assert (In r (filter (fun r => mem r (pl_repos (j_payload j))) l)) as K.
      { apply filter_In. split; [exact H2|]. now apply mem_In. }
      rewrite E in K. destruct K. }
  apply G.
Qed.
