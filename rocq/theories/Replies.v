(** * Replies: the Reply objects returned by commands

    [Reply] (models.py:114-117).  The texts of messages are represented by one
    constructor per message template of the source, carrying the values that
    are formatted into it.  Definitions only. *)
From Coq Require Import List String ZArith.
From Verif Require Import Base Types.
Import ListNotations.

Inductive rmsg : Type :=
(* daemon/cmd.py:28,39,43,89,102,109,119,131,140,147,156 *)
| MStatus (s : dstatus) | MJobsRunning (n : nat) | MSetToStop | MParseError
| MDeletePip | MModifyPip | MDeleteComp | MModifyComp | MDeleteDrv | MModifyDrv
| MReloaded
(* ketchup/__init__.py:80,88,109,118-120,173,179,181,185-198,244,258-262,299,301,307-309,343-348 *)
| MNoPayload | MBadSuffix | MUnknownRepo (r : string)
| MSubmitted (id : Z) (name : option string)
| MQueueEmpty | MNoJob (ids : list Z) | MNoJobs (ids : list Z)
| MFoundOne (s : jstatus) | MFound (l : list (jstatus * list Z))
| MNoSuchJob (id : Z) | MAllCancelled | MCancelled (ids : list Z)
| MSnapMissing (id : Z) | MSnapQueued (id : Z) | MSnapshots (ids : list Z)
| MMatching (t : string) (ids : list Z) | MNoMatch (t : string)
(* tomato/__init__.py:192,249,255,368,488,506,534,541,547,580,586,592,625,631,637 *)
| MRunning (port : Z) | MNotRunning (port : Z) | MClosed (port : Z)
| MNoSettings | MReloadedFrom (port : Z)
| MUnknownPip (p : string) | MNotEmpty (p : string) | MLoaded (s p : string)
| MAlreadyEmpty (p : string) | MEjectRunning | MEjected (p : string)
| MAlreadyReady (p : string) | MReadyRunning | MSetReady (p : string)
(* passata/__init__.py:45,66,72,75,90,100,245-249 *)
| MUnknownCmp (n : string) | MInvalidStatus | MCmpRunning (n : string) | MCanSet
| MNoPort (n : string) | MTimeout | MGotAttrs (l : list string)
(* the message of a reply received from a driver *)
| MDriver
(* daemon/__init__.py:80 *)
| MNoCmd.

Inductive rdata : Type :=
| RNone
| RDaemon (d : daemon)
| RJob (j : job)
| RJobs (l : list job)
| RPip (p : option pipstate)
| RPips (l : list pipstate)
| RPipeline (p : pipeline)
| RComponent (c : component)
| RDriver (d : option driver)
| RDrvSettings (d : dict sval)
| RSettings (s : settings)
| RRunning (b : bool)
| RVals (l : list (string * pyval))
| ROther.

Record reply : Type := mkReply { r_ok : bool; r_msg : rmsg; r_data : rdata }.
