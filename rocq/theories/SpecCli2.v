(** * SpecCli2: how the words of a command line are used (C81) *)
From Coq Require Import List String Ascii ZArith Bool.
From Verif Require Import Base PyStr CliModel SpecCli.
Import ListNotations.
Open Scope string_scope.
Open Scope Z_scope.

(** A piece of a line: an option with its value, the words of one positional argument, or a
    word that is not used. *)
Inductive piece : Type :=
| POption (o : optarg) (name : string) (word : option string) (v : cval)
| PArg (a : posarg) (ts : list string) (v : cval)
| PIgnored (t : string).
Definition words (p : piece) : list string :=
  match p with
  | POption _ name (Some t) _ => [name; t]
  | POption _ name None _ => [name]
  | PArg _ ts _ => ts
  | PIgnored t => [t]
  end.
Definition ignored (p : piece) : list string := match p with PIgnored t => [t] | _ => [] end.

(** The value of [d] after the pieces: the one set last, or [x]. *)
Fixpoint last_set (d : string) (ps : list piece) (x : option cval) : option cval :=
  match ps with
  | [] => x
  | p :: r => last_set d r
      match p with
      | POption o _ _ v => if String.eqb d (oa_dest o) then Some v else x
      | PArg a _ v => if String.eqb d (pa_dest a) then Some v else x
      | PIgnored _ => x
      end
  end.

(** The value a word is read as. *)
Definition reads (int : bool) (t : string) (v : cval) : Prop :=
  if int then exists z, int_of t = Some z /\ v = CInt z else v = CStr t.
Definition dashed (t : string) : Prop := exists r, t = String "-" r.
Definition may_miss (a : posarg) : Prop := pa_arity a = AOpt \/ pa_arity a = AStar.

(** The pieces are a proper use of the options [opts] and the arguments [acts], in this order.
    A word is not used only if it looks like an option and is none, or if all arguments
    have been given before. *)
Inductive reading (opts : list optarg) : list posarg -> list piece -> Prop :=
| rd_end acts : Forall may_miss acts -> reading opts acts []
| rd_flag acts o name ps : In o opts -> In name (oa_names o) -> oa_kind o = OFlag -> reading opts acts ps ->
    reading opts acts (POption o name None (CBool true) :: ps)
| rd_value acts o name int df t v ps : In o opts -> In name (oa_names o) -> oa_kind o = OValue int df ->
    reads int t v -> reading opts acts ps -> reading opts acts (POption o name (Some t) v :: ps)
| rd_one a acts t v ps : pa_arity a = AOne \/ pa_arity a = AOpt -> reads (pa_int a) t v ->
    (pa_int a = false -> allowed a t) -> reading opts acts ps -> reading opts (a :: acts) (PArg a [t] v :: ps)
| rd_many a acts t ts vs ps : pa_arity a = AStar \/ pa_arity a = APlus -> Forall2 (reads (pa_int a)) (t :: ts) vs ->
    reading opts acts ps -> reading opts (a :: acts) (PArg a (t :: ts) (CList vs) :: ps)
| rd_unknown acts t ps : dashed t -> (forall o, In o opts -> ~ In t (oa_names o)) ->
    reading opts acts ps -> reading opts acts (PIgnored t :: ps)
| rd_surplus t ps : reading opts [] ps -> reading opts [] (PIgnored t :: ps).

(** The words before and between those of the path of a subcommand. *)
Fixpoint fronted (fronts : list (list string)) (path : list string) : list string :=
  match fronts, path with
  | f :: fs, p :: ps => (f ++ p :: fronted fs ps)%list
  | _, _ => []
  end.
Definition switch (t : string) : bool := existsb (String.eqb t) (verbose_words ++ quiet_words)%list.
