(** * P_Io: the data files of a job (C61, C65 to C67) *)
From Coq Require Import List String Ascii ZArith Bool Lia DecimalString Decimal.
From Verif Require Import Base BaseFacts PyStr Prog ProgFacts Types JobModel KetchupProofs
  JobThreadModel SpecWorker JobThreadProofs IoModel SpecIo IoProofs.
Import ListNotations.
Open Scope nat_scope.
Open Scope string_scope.

(** ** C65: the merged file *)

(** In a folder without .pkl files, whatever data is then stored for whatever roles (names
    without slash), in whatever order: merging succeeds, changes no .pkl file, and the
    group of a role holds all data stored for it, in order; there are no other groups. *)
Theorem C65 s l out :
  NoDup (dkeys (f_folder s)) -> (forall r, dget (f_folder s) (r ++ ".pkl") = None) ->
  Forall (fun rd => has_char "/" (fst rd) = false) l ->
  exists s1 s2 g, runf (store_all l) s = (Ok tt, s1) /\ runf (merge out) s1 = (Ok tt, s2)
    /\ f_folder s2 = f_folder s1 /\ dget (f_out s2) out = Some g
    /\ (forall r, dget g r = kept r l)
    /\ (forall p, p <> out -> dget (f_out s2) p = dget (f_out s) p).
Proof.
  intros N E NS.
  assert (F : folder_ok (fun _ => None) s) by (split; [exact E | exact N]).
  destruct (store_all_ok l _ s F NS) as (s1 & R1 & F1 & O1 & _).
  destruct (merge_ok _ s1 out F1) as (g & R2 & G).
  exists s1, (mkFs (f_folder s1) (dset (f_out s1) out g)), g. cbn [f_folder f_out].
  split; [exact R1|]. split; [exact R2|]. split; [reflexivity|]. split; [apply dget_dset_same|]. split.
  - intros r. rewrite G, fold_more. destruct (kept r l); reflexivity.
  - intros p NE. rewrite dget_dset_other by exact NE. rewrite O1. reflexivity.
Qed.
Print Assumptions C65.

(** For any readable folder: the groups are the roles of the files, with their data. *)
Theorem C65_folder held s out :
  NoDup (dkeys (f_folder s)) ->
  (forall r, dget (f_folder s) (r ++ ".pkl")
             = match held r with Some p => Some (PValue (Some (mkDs (Some r) p))) | None => None end) ->
  exists g, runf (merge out) s = (Ok tt, mkFs (f_folder s) (dset (f_out s) out g)) /\ forall r, dget g r = held r.
Proof.
  intros N F. apply merge_ok. split; [|exact N]. intros r. unfold role_file. rewrite F. destruct (held r); reflexivity.
Qed.
Print Assumptions C65_folder.

Definition fs0 : fsys := mkFs [("job-1.log", PBroken); ("jobdata.json", PBroken)] [].
Definition stores1 : list (string * list nat) :=
  [("a", [1; 2]); ("b", [7]); ("a", [3]); ("c", []); ("b", [8; 9])].
Example C65_ex :
  option_map (fun g => g) (dget (f_out (snd (runf (merge "/out/results.1.nc") (snd (runf (store_all stores1) fs0))))) "/out/results.1.nc")
  = Some [("a", [1; 2; 3]); ("b", [7; 8; 9]); ("c", [])].
Proof. vm_compute. reflexivity. Qed.

(** *** C61: from the worker to its file *)
Fixpoint store_events (l : list jview) : list (list nat) :=
  match l with [] => [] | VStore d :: r => d :: store_events r | _ :: r => store_events r end.
Lemma store_events_stored l : List.concat (store_events l) = stored l.
Proof. induction l as [|e l IH]; [reflexivity|]. destruct e; try exact IH. cbn. rewrite IH. reflexivity. Qed.

(** The file of the role holds the data received from the component, in order, if there
    was any and the worker has ended without a failed operation. *)
Theorem C61_file_partial f pr tasks l q role s :
  leads (job_thread f pr tasks) l q -> ~ In VFail (views l) ->
  (exists e, q = Raise e) \/ q = Ret tt ->
  NoDup (dkeys (f_folder s)) -> (forall r, dget (f_folder s) (r ++ ".pkl") = None) ->
  has_char "/" role = false -> store_events (views l) <> [] ->
  exists s', runf (store_all (map (fun d => (role, d)) (store_events (views l)))) s = (Ok tt, s')
    /\ dget (f_folder s') (role ++ ".pkl") = Some (PValue (Some (mkDs (Some role) (received (views l))))).
Proof.
  intros H NF E N F NS NE.
  assert (FO : folder_ok (fun _ => None) s) by (split; [exact F | exact N]).
  destruct (store_all_ok (map (fun d => (role, d)) (store_events (views l))) _ s FO) as (s1 & R1 & F1 & _).
  { apply Forall_forall. intros [r d] I1. apply in_map_iff in I1 as (x & E1 & _). injection E1 as <- _. exact NS. }
  exists s1. split; [exact R1|].
  pose proof (fo_files _ _ F1 role) as G. rewrite fold_more in G. unfold role_file in G. rewrite G.
  assert (B : received (views l) = stored (views l)).
  { destruct (BA_job_thread _ _ _ _ _ H) as [[B|(l' & x & _ & _ & [[O _]|V])] _]; [exact B| |].
    - destruct q; try discriminate O. destruct E as [[e E]|E]; discriminate E.
    - exfalso. apply NF. rewrite V. apply in_or_app. right. right. left. reflexivity. }
  assert (K : kept role (map (fun d => (role, d)) (store_events (views l))) = Some (stored (views l))).
  { rewrite <- store_events_stored. unfold kept. revert NE. generalize (store_events (views l)). intros m NE.
    assert (X : filter (fun rd : string * list nat => String.eqb (fst rd) role) (map (fun d => (role, d)) m)
                = map (fun d => (role, d)) m).
    { clear. induction m as [|d m IH]; [reflexivity|]. cbn. rewrite String.eqb_refl, IH. reflexivity. }
    rewrite X. destruct m as [|d m]; [congruence|]. cbn [map]. f_equal.
    change ((role, d) :: map (fun d0 => (role, d0)) m) with (map (fun d0 => (role, d0)) (d :: m)).
    rewrite flat_map_concat_map, map_map. cbn [snd]. rewrite map_id. reflexivity. }
  rewrite K. cbn [option_map]. rewrite B. reflexivity.
Qed.
Print Assumptions C61_file_partial.

(** ** C66: crashes *)

(** At whatever moment the process is killed while data of a role is stored: no other file
    of the folder and no result file changes; the file of the role holds its old content,
    or the complete new content; or it is empty, if the process is killed between opening
    and writing the file -- this is what is missing from the statement. *)
Theorem C66_partial s role d n p' s' :
  after n (store_role role d) s = (p', s') ->
  f_out s' = f_out s
  /\ (forall m, m <> role ++ ".pkl" -> dget (f_folder s') m = dget (f_folder s) m)
  /\ (dget (f_folder s') (role ++ ".pkl") = dget (f_folder s) (role ++ ".pkl")
      \/ (dget (f_folder s') (role ++ ".pkl") = Some PBroken /\ exists v k, p' = Op (FDump (role ++ ".pkl") v) k)
      \/ (p' = Ret tt /\ runf (store_role role d) s = (Ok tt, s')
          /\ exists v, dget (f_folder s') (role ++ ".pkl") = Some (PValue (Some v)))).
Proof. exact (store_crash s role d n p' s'). Qed.
Print Assumptions C66_partial.

(** Ten data points stored, one more being added: all are lost. *)
Definition fs_a : fsys := snd (runf (store_role "a" [0; 1; 2; 3; 4; 5; 6; 7; 8; 9]) fs0).
Theorem C66_refuted :
  exists s n, dget (f_folder s) "a.pkl" = Some (PValue (Some (mkDs (Some "a") [0; 1; 2; 3; 4; 5; 6; 7; 8; 9])))
    /\ dget (f_folder (snd (after n (store_role "a" [10]) s))) "a.pkl" = Some PBroken.
Proof. exists fs_a, 3%nat. vm_compute. split; reflexivity. Qed.
Print Assumptions C66_refuted.
(** And the data of every other role with it: merging raises and writes nothing, at the
    end of the job as well as when the job manager merges the data of the dead process. *)
Theorem C66_lost s out n :
  In n (dkeys (f_folder s)) -> is_pkl n = true -> dget (f_folder s) n = Some PBroken ->
  (forall m, In m (dkeys (f_folder s)) -> is_pkl m = true ->
     dget (f_folder s) m = Some PBroken \/ exists v, dget (f_folder s) m = Some (PValue v)) ->
  runf (merge out) s = (Err EOFError, s).
Proof. exact (merge_broken s out n). Qed.
Print Assumptions C66_lost.
(** The same happens without any crash when a snapshot is taken while a worker stores data:
    the main thread of the job ends with EOFError. *)
Theorem C66_snapshot :
  exists n s, s = snd (after n (store_role "a" [10]) (snd (runf (store_role "b" [1]) fs_a)))
    /\ fst (runf (merge "/out/snapshot.1.nc") s) = Err EOFError
    /\ dget (f_folder s) "b.pkl" = Some (PValue (Some (mkDs (Some "b") [1]))).
Proof. exists 3%nat. eexists. split; [reflexivity|]. vm_compute. split; reflexivity. Qed.
Print Assumptions C66_snapshot.
Example C66_ex :
  map (fun n => dget (f_folder (snd (after n (store_role "a" [10]) fs_a))) "a.pkl") [0; 1; 2; 3; 4]%nat
  = let old := Some (PValue (Some (mkDs (Some "a") [0; 1; 2; 3; 4; 5; 6; 7; 8; 9]))) in
    [old; old; old; Some PBroken; Some (PValue (Some (mkDs (Some "a") [0; 1; 2; 3; 4; 5; 6; 7; 8; 9; 10])))].
Proof. vm_compute. reflexivity. Qed.

(** ** C67: result files *)
Lemma uint_no_slash d : has_char "/" (NilEmpty.string_of_uint d) = false.
Proof. induction d; cbn; auto. Qed.
Lemma str_of_Z_no_slash z : has_char "/" (str_of_Z z) = false.
Proof.
  unfold str_of_Z, NilZero.string_of_int. destruct (Z.to_int z) as [u|u].
  - unfold NilZero.string_of_uint. destruct u; try apply uint_no_slash. reflexivity.
  - cbn. unfold NilZero.string_of_uint. destruct u; try apply uint_no_slash. reflexivity.
Qed.
Lemma last_component (a : string) : forall b x y, a ++ "/" ++ x = b ++ "/" ++ y ->
  has_char "/" x = false -> has_char "/" y = false -> a = b /\ x = y.
Proof.
  induction a as [|c a IH]; intros [|d b] x y H X Y; cbn in H.
  - injection H as ->. auto.
  - injection H as <- ->. exfalso. rewrite has_char_app in X. cbn in X. rewrite orb_true_r in X. discriminate X.
  - injection H as -> <-. exfalso. rewrite has_char_app in Y. cbn in Y. rewrite orb_true_r in Y. discriminate Y.
  - injection H as -> H. destruct (IH _ _ _ H X Y) as [-> ->]. auto.
Qed.
Lemma path_join_plain out x : has_char "/" x = false -> x <> "" -> path_join out x = out ++ "/" ++ x.
Proof.
  intros X N. destruct x as [|c x]; [congruence|]. cbn [path_join].
  destruct (Ascii.eqb_spec c "/") as [->|_]; [discriminate X | reflexivity].
Qed.

(** Without a prefix in the payload, different jobs have different result files, whatever
    their output folders, and no result file is the snapshot file of any job. *)
Theorem C67_partial out1 out2 pl1 pl2 i j :
  pl_prefix pl1 = None -> pl_prefix pl2 = None -> i <> j ->
  res_path out1 pl1 i <> res_path out2 pl2 j
  /\ snap_path out1 i <> snap_path out2 j
  /\ (forall k1 k2, res_path out1 pl1 k1 <> snap_path out2 k2).
Proof.
  intros P1 P2 NE. unfold res_path, snap_path. rewrite P1, P2.
  assert (S : forall p z, has_char "/" p = false -> p <> "" -> has_char "/" (p ++ str_of_Z z ++ ".nc") = false
            /\ p ++ str_of_Z z ++ ".nc" <> "").
  { intros p z Hp Np. split; [|destruct p; [congruence | discriminate]].
    rewrite !has_char_app, Hp, str_of_Z_no_slash. reflexivity. }
  assert (A : forall a b c, (a ++ b) ++ c = a ++ b ++ c).
  { induction a as [|x a IH]; intros; cbn; [reflexivity | rewrite IH; reflexivity]. }
  rewrite !A.
  destruct (S "results." i eq_refl ltac:(discriminate)) as [A1 A2].
  destruct (S "results." j eq_refl ltac:(discriminate)) as [B1 B2].
  destruct (S "snapshot." i eq_refl ltac:(discriminate)) as [C1 C2].
  destruct (S "snapshot." j eq_refl ltac:(discriminate)) as [D1 D2].
  rewrite !path_join_plain by assumption.
  split; [|split].
  - intros E. destruct (last_component _ _ _ _ E A1 B1) as [_ E2].
    apply string_app_inj, app_inj_r, str_of_Z_inj in E2. contradiction.
  - intros E. destruct (last_component _ _ _ _ E C1 D1) as [_ E2].
    apply string_app_inj, app_inj_r, str_of_Z_inj in E2. contradiction.
  - intros k1 k2. rewrite !A.
    destruct (S "results." k1 eq_refl ltac:(discriminate)) as [X1 X2].
    destruct (S "snapshot." k2 eq_refl ltac:(discriminate)) as [Y1 Y2].
    rewrite !path_join_plain by assumption. intros E. destruct (last_component _ _ _ _ E X1 Y1) as [_ E2].
    discriminate E2.
Qed.
Print Assumptions C67_partial.

(** With prefixes: jobs with different ones do not collide (names without slash). *)
Theorem C67_prefix_partial out1 out2 pl1 pl2 i j p1 p2 :
  pl_prefix pl1 = Some p1 -> pl_prefix pl2 = Some p2 -> p1 <> p2 ->
  has_char "/" p1 = false -> has_char "/" p2 = false ->
  res_path out1 pl1 i <> res_path out2 pl2 j.
Proof.
  intros P1 P2 NE S1 S2. unfold res_path. rewrite P1, P2.
  assert (N : forall p, p ++ ".nc" <> "") by (intros [|]; discriminate).
  assert (X1 : has_char "/" (p1 ++ ".nc") = false) by (rewrite has_char_app, S1; reflexivity).
  assert (X2 : has_char "/" (p2 ++ ".nc") = false) by (rewrite has_char_app, S2; reflexivity).
  rewrite !path_join_plain by auto. intros E. destruct (last_component _ _ _ _ E X1 X2) as [_ E2].
  apply app_inj_r in E2. contradiction.
Qed.
Print Assumptions C67_prefix_partial.

Definition pl_pre (p : option string) : payload := mkPayload "s" [] (Some "/out") p [] None false "u" false.
(** The same prefix, or the default name of another job, or its snapshot: the same file. *)
Theorem C67_refuted :
  exists p1 p2 p3, res_path "/out" (pl_pre p1) 1 = res_path "/out" (pl_pre p1) 2
    /\ res_path "/out" (pl_pre p2) 1 = res_path "/out" (pl_pre None) 2
    /\ res_path "/out" (pl_pre p3) 1 = snap_path "/out" 2.
Proof. exists (Some "run"), (Some "results.2"), (Some "snapshot.2"). vm_compute. repeat split; reflexivity. Qed.
Print Assumptions C67_refuted.
(** The file of the first job is replaced. *)
Theorem C67_overwrites s out :
  forall g1 g2, let s2 := snd (runf (fact (FNetcdf out g2)) (snd (runf (fact (FNetcdf out g1)) s))) in
  dget (f_out s2) out = Some g2.
Proof. intros g1 g2. cbn. apply dget_dset_same. Qed.
Print Assumptions C67_overwrites.
Example C67_ex : res_path "/out" (pl_pre None) 12 = "/out/results.12.nc" /\ snap_path "/out" 12 = "/out/snapshot.12.nc"
  /\ res_path "/out" (pl_pre (Some "run")) 12 = "/out/run.nc".
Proof. vm_compute. repeat split; reflexivity. Qed.
(** A data set without a role cannot be merged; of several with one role the last is kept. *)
Example C65_roles :
  groups [] [mkDs (Some "x") [1]; mkDs None [2]] = Err KeyError /\
  groups [] [mkDs (Some "x") [1]; mkDs (Some "y") [2]; mkDs (Some "x") [3]] = Ok [("x", [3]); ("y", [2])].
Proof. split; reflexivity. Qed.
