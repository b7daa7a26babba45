(** * P_Table: printed tables (C69) *)
From Coq Require Import List String Ascii Bool Arith Lia.
From Verif Require Import Base BaseFacts TableModel SpecTable.
Import ListNotations.
Open Scope string_scope.

Definition got (t : dict (list nat)) (k : string) : list nat := match dget t k with Some l => l | None => [] end.

Lemma got_dset_same t k l : got (dset t k l) k = l.
Proof. unfold got. rewrite dget_dset_same. reflexivity. Qed.
Lemma got_dset_other t k k' l : k' <> k -> got (dset t k l) k' = got t k'.
Proof. intros N. unfold got. rewrite dget_dset_other by exact N. reflexivity. Qed.

Lemma lens_row_spec (r : row) : forall keys t, (forall k, In k keys -> exists v, dget r k = Some v) ->
  exists t', lens_row r keys t = Ok t' /\ (forall k x, In x (got t k) -> In x (got t' k))
    /\ (forall k v, In k keys -> dget r k = Some v -> In (String.length v) (got t' k)).
Proof.
  induction keys as [|k ks IH]; intros t H.
  - exists t. split; [reflexivity|]. split; [auto | intros k v []].
  - destruct (H k (or_introl eq_refl)) as [v V]. cbn [lens_row]. unfold cell. rewrite V.
    fold (got t k). set (t1 := dset t k (got t k ++ [String.length v])%list).
    destruct (IH t1 (fun k' I => H k' (or_intror I))) as (t' & E & K & C). exists t'. split; [exact E|].
    assert (I1 : forall k' x, In x (got t k') -> In x (got t1 k')).
    { intros k' x I. unfold t1. destruct (String.eqb_spec k' k) as [->|N].
      - rewrite got_dset_same. apply in_or_app. left. exact I.
      - rewrite got_dset_other by exact N. exact I. }
    split; [intros k' x I; apply K, I1, I|].
    intros k' v' [<-|I] V'; [|exact (C k' v' I V')].
    apply K. unfold t1. rewrite got_dset_same, V in *. injection V' as <-. apply in_or_app. right. left. reflexivity.
Qed.
Lemma lens_spec keys : forall rows t, (forall r, In r rows -> forall k, In k keys -> exists v, dget r k = Some v) ->
  exists t', lens rows keys t = Ok t' /\ (forall k x, In x (got t k) -> In x (got t' k))
    /\ (forall r k v, In r rows -> In k keys -> dget r k = Some v -> In (String.length v) (got t' k)).
Proof.
  induction rows as [|r rs IH]; intros t H.
  - exists t. split; [reflexivity|]. split; [auto | intros r k v []].
  - cbn [lens]. destruct (lens_row_spec r keys t (H r (or_introl eq_refl))) as (t1 & -> & K1 & C1).
    destruct (IH t1 (fun r' I => H r' (or_intror I))) as (t' & E & K & C). exists t'. split; [exact E|].
    split; [intros; apply K, K1; assumption|].
    intros r' k v [<-|I] Ik V; [apply K, (C1 k v Ik V) | exact (C r' k v I Ik V)].
Qed.
Lemma fold_max l : forall x y, (y = x \/ In y l) -> y <= fold_left Nat.max l x.
Proof.
  induction l as [|a l IH]; intros x y [->|I]; cbn.
  - lia.
  - destruct I.
  - etransitivity; [|apply IH; left; reflexivity]. lia.
  - destruct I as [->|I]; [etransitivity; [|apply IH; left; reflexivity]; lia | apply IH; right; exact I].
Qed.
Lemma max_of_spec t k x : In x (got t k) -> exists n, max_of t k = Ok n /\ forall y, In y (got t k) -> y <= n.
Proof.
  unfold max_of, got. destruct (dget t k) as [[|a l]|]; intros I; try destruct I.
  all: eexists; split; [reflexivity|]; intros y [->|Iy]; apply fold_max; auto.
Qed.
Lemma maxlens_spec t : forall keys m, (forall k, In k keys -> exists n, max_of t k = Ok n) ->
  (forall k n, dget m k = Some n -> max_of t k = Ok n) ->
  exists m', maxlens t keys m = Ok m' /\ (forall k n, dget m' k = Some n -> max_of t k = Ok n)
    /\ (forall k n, dget m k = Some n -> exists n', dget m' k = Some n')
    /\ (forall k, In k keys -> exists n, dget m' k = Some n).
Proof.
  induction keys as [|k ks IH]; intros m H M.
  - exists m. split; [reflexivity|]. split; [exact M|]. split; [eauto | intros k []].
  - cbn [maxlens]. destruct (H k (or_introl eq_refl)) as [n E0]. rewrite E0.
    destruct (IH (dset m k n)) as (m' & E & A & K & C).
    + intros k' I. apply H. right. exact I.
    + intros k' n'. destruct (String.eqb_spec k' k) as [->|N].
      * rewrite dget_dset_same. intros [= <-]. exact E0.
      * rewrite dget_dset_other by exact N. apply M.
    + exists m'. split; [exact E|]. split; [exact A|]. split.
      * intros k' n' G. destruct (String.eqb_spec k' k) as [->|N].
        -- apply (K k n). apply dget_dset_same.
        -- apply (K k' n'). rewrite dget_dset_other by exact N. exact G.
      * intros k' [<-|I]; [|exact (C k' I)]. apply (K k n). apply dget_dset_same.
Qed.
Lemma len_app (a b : string) : String.length (a ++ b) = String.length a + String.length b.
Proof. induction a as [|c a IH]; cbn; [reflexivity | rewrite IH; reflexivity]. Qed.
Lemma str_assoc (a b c : string) : (a ++ b) ++ c = a ++ (b ++ c).
Proof. induction a as [|x a IH]; cbn; [reflexivity | rewrite IH; reflexivity]. Qed.
Lemma len_spaces n : String.length (spaces n) = n.
Proof. induction n; cbn; auto. Qed.
Lemma get_spaces n : forall i c, String.get i (spaces n) = Some c -> c = " "%char.
Proof. induction n as [|n IH]; intros [|i] c H; cbn in H; try discriminate H; [congruence | eauto]. Qed.

Definition widths (m : dict nat) (keys : list string) : list nat :=
  map (fun k => String.length k + 1 + (match dget m k with Some n => n | None => 0 end + 2)) keys.

Lemma line_spec (m : dict nat) (r : row) : forall keys,
  (forall k, In k keys -> exists v n, dget r k = Some v /\ dget m k = Some n /\ String.length v <= n) ->
  exists cells line, line_of m r keys = Ok line /\ Forall2 (fun k c => dget r k = Some c) keys cells
    /\ laid_out (widths m keys) keys cells line.
Proof.
  induction keys as [|k ks IH]; intros H.
  - exists [], "". split; [reflexivity|]. split; constructor.
  - destruct (H k (or_introl eq_refl)) as (v & n & V & N & L).
    destruct (IH (fun k' I => H k' (or_intror I))) as (cells & line & E & F & LO).
    exists (v :: cells), ((k ++ ":" ++ pad v (n + 2)) ++ line). cbn [line_of]. unfold cell. rewrite V, N, E. split.
    { f_equal. rewrite !str_assoc. reflexivity. }
    split; [constructor; assumption|]. cbn [widths map]. constructor; [| | exact LO].
    + unfold pad. constructor; [apply get_spaces | rewrite len_spaces; lia].
    + rewrite N. unfold pad. rewrite !len_app, len_spaces. cbn [String.length]. lia.
Qed.
Lemma lines_spec (m : dict nat) keys : forall rows,
  (forall r, In r rows -> forall k, In k keys -> exists v n, dget r k = Some v /\ dget m k = Some n /\ String.length v <= n) ->
  exists lines, lines_of m rows keys = Ok lines
    /\ Forall2 (fun r line => exists cells, Forall2 (fun k c => dget r k = Some c) keys cells
                                            /\ laid_out (widths m keys) keys cells line) rows lines.
Proof.
  induction rows as [|r rs IH]; intros H.
  - exists []. split; [reflexivity | constructor].
  - destruct (line_spec m r keys (H r (or_introl eq_refl))) as (cells & line & E & F & LO).
    destruct (IH (fun r' I => H r' (or_intror I))) as (lines & E2 & F2).
    exists (line :: lines). cbn [lines_of]. rewrite E, E2. split; [reflexivity|]. constructor; eauto.
Qed.
Lemma laid_out_length ws keys cells line : laid_out ws keys cells line -> String.length line = fold_right Nat.add 0 ws.
Proof. intros H. induction H; [reflexivity|]. rewrite len_app. cbn. congruence. Qed.

(** For every table with at least one row whose rows have all keys: one line per row, in
    order, in which every cell stands behind its key, in the order of the keys, the columns
    being equally wide in all lines; all lines have the same length. *)
Theorem C69_partial rows keys :
  rows <> [] -> (forall r, In r rows -> forall k, In k keys -> exists v, dget r k = Some v) ->
  exists ws lines, make_padded_lines rows keys = Ok lines
    /\ Forall2 (fun r line => exists cells, Forall2 (fun k c => dget r k = Some c) keys cells
                                            /\ laid_out ws keys cells line) rows lines
    /\ Forall (fun line => String.length line = fold_right Nat.add 0 ws) lines.
Proof.
  intros NE H. unfold make_padded_lines.
  destruct (lens_spec keys rows [] H) as (t & -> & _ & C).
  destruct rows as [|r0 rs]; [congruence|].
  destruct (maxlens_spec t keys []) as (m & -> & A & _ & K).
  - intros k I. destruct (H r0 (or_introl eq_refl) k I) as [v V].
    destruct (max_of_spec t k _ (C r0 k v (or_introl eq_refl) I V)) as (n & E & _). eauto.
  - intros k n X. discriminate X.
  - destruct (lines_spec m keys (r0 :: rs)) as (lines & E & F).
    + intros r Ir k Ik. destruct (H r Ir k Ik) as [v V]. destruct (K k Ik) as [n N]. exists v, n.
      split; [exact V|]. split; [exact N|].
      destruct (max_of_spec t k _ (C r k v Ir Ik V)) as (n' & E' & B).
      rewrite (A k n N) in E'. injection E' as ->. apply B, (C r k v Ir Ik V).
    + exists (widths m keys), lines. split; [exact E|]. split; [exact F|].
      clear - F. induction F as [|r l rs1 ls (cells & _ & L) F IH]; constructor; [|exact IH].
      exact (laid_out_length _ _ _ _ L).
Qed.
Print Assumptions C69_partial.

(** A table is printed exactly if it has a row (or no keys) and all rows have all keys. *)
Lemma lens_row_all (r : row) : forall keys t t', lens_row r keys t = Ok t' -> forall k, In k keys -> exists v, dget r k = Some v.
Proof.
  induction keys as [|k ks IH]; intros t t' H k' I; [destruct I|]. cbn [lens_row] in H. unfold cell in H.
  destruct (dget r k) as [v|] eqn:E; [|discriminate H]. destruct I as [<-|I]; [eauto|exact (IH _ _ H k' I)].
Qed.
Lemma lens_all keys : forall rows t t', lens rows keys t = Ok t' ->
  forall r, In r rows -> forall k, In k keys -> exists v, dget r k = Some v.
Proof.
  induction rows as [|r rs IH]; intros t t' H r' I; [destruct I|]. cbn [lens] in H.
  destruct (lens_row r keys t) as [t1|e] eqn:E; [|discriminate H].
  destruct I as [<-|I]; [exact (lens_row_all r keys t t1 E)|exact (IH _ _ H r' I)].
Qed.
Theorem C69_iff rows keys :
  (exists lines, make_padded_lines rows keys = Ok lines) <->
  (keys = [] \/ rows <> []) /\ (forall r, In r rows -> forall k, In k keys -> exists v, dget r k = Some v).
Proof.
  split.
  - intros [lines H]. split.
    + destruct keys as [|k ks]; [auto|]. destruct rows as [|r rs]; [discriminate H|]. right. discriminate.
    + unfold make_padded_lines in H. destruct (lens rows keys []) as [t|e] eqn:E; [|discriminate H].
      exact (lens_all keys rows [] t E).
  - intros [N H]. destruct rows as [|r rs].
    + destruct N as [->|N]; [exists []; reflexivity|congruence].
    + destruct (C69_partial (r :: rs) keys) as (ws & lines & E & _); [discriminate|exact H|eauto].
Qed.
Print Assumptions C69_iff.

(** A table without rows is not printed at all: ValueError; the message "with no ..." of
    format_msg is never produced. *)
Theorem C69_refuted keys msg objs : keys <> [] ->
  make_padded_lines [] keys = Err ValueError /\ format_msg msg objs false keys [] = Err ValueError.
Proof. intros N. destruct keys as [|k ks]; [congruence|]. split; reflexivity. Qed.
Print Assumptions C69_refuted.

Definition drvs : list row :=
  [[("name", "example_counter"); ("port", "34747"); ("pid", "1")]; [("name", "p"); ("port", "None"); ("pid", "None")]].
Example C69_ex :
  make_padded_lines drvs ["name"; "port"; "pid"]
  = Ok ["name:example_counter  port:34747  pid:1     ";
        "name:p                port:None   pid:None  "].
Proof. vm_compute. reflexivity. Qed.
Example C69_texts :
  format_msg "m" "drivers" true ["name"] drvs = Ok "" /\
  format_msg "m" "drivers" false [] [] = Ok "m with no drivers" /\
  format_msg "m" "drivers" false ["port"] drvs =
    Ok ("m with the following drivers:" ++ nl_tab ++ "port:34747  " ++ nl_tab ++ "port:None   ") /\
  format_msg "m" "drivers" false ["name"; "age"] drvs = Err KeyError.
Proof. repeat split; vm_compute; reflexivity. Qed.
