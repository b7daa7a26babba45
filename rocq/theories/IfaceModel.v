(** * IfaceModel: the driver interface and the main loop of a driver process

    Models driverinterface_2_1/__init__.py:51-454 ([ModelInterface]), the decorators
    of driverinterface_2_1/decorators.py:13-70, [ModelInterface] of driverinterface_2_0
    (__init__.py:30-503) where it differs,
    and daemon/driver.py:36-114 ([tomato_driver_bootstrap],
    [perform_idle_measurements]) and 241-324 (main loop of [tomato_driver]).
    Definitions only.

    Simplifications:
    - a request is handled atomically; the interleaving of its steps with the worker
      thread of a component is the subject of DeviceModel.v; [reset] waits for the
      worker thread and here always succeeds;
    - what a particular driver does in [DeviceFactory], [capabilities], [get_attr],
      [set_attr] and in methods of its own is an oracle [hw], which is given the
      number of driver-specific calls made so far; a driver may override
      [cmp_measure] by a method that first raises ([h_measure]);
    - between two turns of the main loop the worker threads may change the contents of
      the components in any way ([ti_work]);
    - a request is a dictionary with the keys "cmd" and "params" at most, the command a string that
      does not name an attribute that every Python object has ("__init__", "__class__", ...),
      the parameters a dictionary with the entries of [rparams] at most;
    - reply messages are not modelled; the data of a reply is kept as far as it
      matters to the receiver or to its transmission. *)
From Coq Require Import List String ZArith Bool.
From Verif Require Import Base Types AttrModel.
Import ListNotations.
Open Scope string_scope.
Open Scope Z_scope.

(** ** State *)

Inductive version : Type := V20 | V21.

(** [Key] (driverinterface_2_1/types.py): (address, channel); [in_devmap] builds it
    with [kwargs.get], so either part may be None. *)
Definition key : Type := option string * option string.
Definition key_eqb (a b : key) : bool :=
  opt_eqb String.eqb (fst a) (fst b) && opt_eqb String.eqb (snd a) (snd b).

(** An entry of [ModelDevice.task_list]: a task or the string "measure". *)
Inductive item : Type := ITask (t : task) | IMeasure.

(** [ModelDevice] (457-505): the worker's current item, the queue, the cached data
    (points are numbers), the last point, the two flags of the worker thread, and the
    identity of the object.  For a 2.0 component (505-728) [v_running] is Some when
    [self.running] is True, [v_run] tells that [self.thread] has not been started yet, and
    [v_run_task] is the flag [do_run] of that thread. *)
Record device : Type := mkDev {
  v_serial : nat;
  v_running : option item;
  v_tasks : list item;
  v_data : list Z;
  v_last : option Z;
  v_run : bool;
  v_run_task : bool
}.
(** The state set up by [__init__] (492-505). *)
Definition new_device (n : nat) : device := mkDev n None [] [] None true false.

(** Things recorded for the properties: a call of [cmp_register] by
    [tomato_driver_bootstrap] ([true]) or on request ([false]), a successful registration, a round of idle measurements, a value passed to an attribute. *)
Inductive event : Type :=
| EvRegister (auto : bool) (k : key)
| EvRegistered (k : key)
| EvRound (t : Z)
| EvSet (k : key) (name : string) (v : pyval).

(** [ModelInterface] (76-93).  [i_imi] is settings["idle_measurement_interval"]
    ([None]: no such entry), [i_class_imi] the class attribute of that name. *)
Record iface : Type := mkIface {
  i_ver : version;
  i_devmap : list (key * device);
  i_retries : list (key * Z);
  i_imi : option (option Z);
  i_class_imi : option Z;
  i_calls : nat;
  i_log : list event
}.

(** Dictionaries with such keys. *)
Fixpoint kget {A : Type} (d : list (key * A)) (k : key) : option A :=
  match d with
  | [] => None
  | (k', a) :: r => if key_eqb k k' then Some a else kget r k
  end.
Fixpoint kset {A : Type} (d : list (key * A)) (k : key) (a : A) : list (key * A) :=
  match d with
  | [] => [(k, a)]
  | (k', b) :: r => if key_eqb k k' then (k', a) :: r else (k', b) :: kset r k a
  end.
Fixpoint kdel {A : Type} (d : list (key * A)) (k : key) : list (key * A) :=
  match d with
  | [] => []
  | (k', b) :: r => if key_eqb k k' then r else (k', b) :: kdel r k
  end.
(** [self.retries[k]] of a [defaultdict(int)]; [self.retries.get(k, 0)] *)
Definition retries_of (s : iface) (k : key) : Z :=
  match kget (i_retries s) k with Some n => n | None => 0 end.

Definition set_devmap (f : list (key * device) -> list (key * device)) (s : iface) : iface :=
  mkIface (i_ver s) (f (i_devmap s)) (i_retries s) (i_imi s) (i_class_imi s) (i_calls s) (i_log s).
Definition set_retries (f : list (key * Z) -> list (key * Z)) (s : iface) : iface :=
  mkIface (i_ver s) (i_devmap s) (f (i_retries s)) (i_imi s) (i_class_imi s) (i_calls s) (i_log s).
Definition set_imi (x : option (option Z)) (s : iface) : iface :=
  mkIface (i_ver s) (i_devmap s) (i_retries s) x (i_class_imi s) (i_calls s) (i_log s).
Definition count_call (s : iface) : iface :=
  mkIface (i_ver s) (i_devmap s) (i_retries s) (i_imi s) (i_class_imi s) (S (i_calls s)) (i_log s).
Definition note (e : event) (s : iface) : iface :=
  mkIface (i_ver s) (i_devmap s) (i_retries s) (i_imi s) (i_class_imi s) (i_calls s) (i_log s ++ [e]).

(** ** Messages *)

(** [msg["params"]], turned into keyword arguments. *)
Record rparams : Type := mkRp {
  rp_key : option key;
  rp_address : option string;
  rp_channel : option string;
  rp_attr : option string;
  rp_val : option pyval;
  rp_task : option task;
  rp_do_run : option bool;
  rp_imi : option (option Z)
}.
Definition no_params : rparams := mkRp None None None None None None None None.

(** A request: [msg.get("cmd")] and [msg.get("params")]. *)
Record dreq : Type := mkReq { rq_cmd : option string; rq_params : option rparams }.

(** [Reply.data].  [RView] is something Python refuses to pickle: a dict view
    ([self.devmap.keys()], driverinterface_2_0/__init__.py:46) or a component. *)
Inductive rdata : Type :=
| RNone | RView | RVal (v : pyval) | RNames (l : list string) | RKeys (l : list key)
| RPoints (l : list Z) | RTask (t : task) | RTaskStatus (running can_submit : bool)
| RAttrs (l : dict attr) | RStatus (l : dict pyval) (running : bool)
| RRetries (l : list (key * Z)) | ROther.
Record dreply : Type := mkReply { dr_ok : bool; dr_data : rdata }.

(** What the driver at hand does in its own code. *)
Record hw : Type := mkHw {
  h_parser : parser;
  h_make : nat -> key -> res unit;                    (* DeviceFactory *)
  h_caps : nat -> key -> res (list string);           (* ModelDevice.capabilities *)
  h_attrs : key -> dict attr;                         (* ModelDevice.attrs *)
  h_set : nat -> key -> string -> pyval -> res unit;  (* ModelDevice.set_attr, inside coerce_val *)
  h_get : nat -> key -> string -> res pyval;          (* ModelDevice.get_attr *)
  h_measure : nat -> key -> option exn;               (* an overridden cmp_measure *)
  h_other : string -> option (nat -> res dreply);     (* attributes of the driver's own interface *)
  h_set20 : nat -> key -> string -> pyval -> res pyval (* set_attr of a 2.0 component *)
}.

(** ** Computations on the interface object that may raise *)
Definition M (A : Type) : Type := iface -> iface * res A.
Definition ret {A} (a : A) : M A := fun s => (s, Ok a).
Definition raise {A} (e : exn) : M A := fun s => (s, Err e).
Definition mbind {A B} (m : M A) (f : A -> M B) : M B :=
  fun s => match m s with (s', Ok a) => f a s' | (s', Err e) => (s', Err e) end.
Definition mget {A} (f : iface -> A) : M A := fun s => (s, Ok (f s)).
Definition mput (f : iface -> iface) : M unit := fun s => (f s, Ok tt).
Definition mres {A} (r : res A) : M A := fun s => (s, r).
(** A driver-specific call: the oracle sees the number of calls made before. *)
Definition call {A} (f : nat -> res A) : M A := fun s => (count_call s, f (i_calls s)).
(** [d[k]] *)
Definition device_at (k : key) : M device :=
  fun s => match kget (i_devmap s) k with Some d => (s, Ok d) | None => (s, Err KeyError) end.
Definition upd_device (k : key) (f : device -> device) : M unit :=
  mput (set_devmap (fun d => match kget d k with Some v => kset d k (f v) | None => d end)).
(** [for x in l: f(x)] *)
Fixpoint mfor {A} (l : list A) (f : A -> M unit) : M unit :=
  match l with [] => ret tt | x :: r => mbind (f x) (fun _ => mfor r f) end.
Definition need_arg {A} (o : option A) : M A :=
  match o with Some a => ret a | None => raise TypeError end.
(** A keyword argument that is passed on together with a second one of the same name. *)
Definition twice (b : bool) : M unit := fun s => (s, if b then Err TypeError else Ok tt).

Declare Scope iface_scope.
Notation "x <-- m ;; f" := (mbind m (fun x => f)) (at level 61, m at next level, right associativity) : iface_scope.
Notation "m ;;- f" := (mbind m (fun _ => f)) (at level 61, right associativity) : iface_scope.
Open Scope iface_scope.

(** ** Decorators *)

(** [log_errors]: 2.1 (decorators.py:47-70) lets ValueError and AttributeError pass,
    2.0 (__init__.py:69-86) nothing; other exceptions become [sys.exit]. *)
Definition log_errors {A} (m : M A) : M A :=
  fun s => match m s with
           | (s', Ok a) => (s', Ok a)
           | (s', Err Blocked) => (s', Err Blocked)
           | (s', Err ValueError) => (s', Err (match i_ver s with V21 => ValueError | V20 => SystemExit end))
           | (s', Err AttributeError) => (s', Err (match i_ver s with V21 => AttributeError | V20 => SystemExit end))
           | (s', Err _) => (s', Err SystemExit)
           end.

(** [in_devmap]: 2.1 (decorators.py:13-27); 2.0 (__init__.py:30-49), where the
    message of the failure uses [address], which is not bound when the request came
    with a key, and the data is the view [self.devmap.keys()]. *)
Definition in_devmap (f : key -> rparams -> M dreply) (p : rparams) : M dreply :=
  fun s =>
    let k := match rp_key p with Some k => k | None => (rp_address p, rp_channel p) end in
    match kget (i_devmap s) k with
    | Some _ => f k p s
    | None =>
        match i_ver s with
        | V21 => (s, Ok (mkReply false RNone))
        | V20 => match rp_key p with
                 | Some _ => (s, Err UnboundLocalError)
                 | None => (s, Ok (mkReply false RView))
                 end
        end
    end.

(** ** Methods of the 2.1 interface (with their decorators) *)

(** cmp_register (102-124) and its 2.0 version (158-175). *)
Definition cmp_register (h : hw) (p : rparams) : M dreply := log_errors (
  address <-- need_arg (rp_address p);;
  channel <-- need_arg (rp_channel p);;
  (* an entry "key" would be passed to [DeviceFactory] twice *)
  twice (is_some (rp_key p)) ;;-
  let k := (Some address, Some channel) in
  fun s =>
    let attempt : M dreply :=
      call (fun n => h_make h n k) ;;-
      n <-- mget i_calls;;
      mput (set_devmap (fun d => kset d k (new_device n))) ;;-                  (* 118 *)
      caps <-- call (fun n => h_caps h n k);;                                   (* 119 *)
      (match i_ver s with V21 => mput (set_retries (fun d => kset d k 0)) | V20 => ret tt end) ;;-
      mput (note (EvRegistered k)) ;;-
      ret (mkReply true (RNames caps)) in                                       (* 120-121 *)
    match i_ver s with
    | V20 => attempt s
    | V21 =>
        match attempt s with
        | (s', Err RuntimeError) =>                                             (* 122-124 *)
            (set_retries (fun d => kset d k (retries_of s' k + 1)) s', Ok (mkReply false RNone))
        | other => other
        end
    end).

(** task_status (308-325): the queue is unbounded, hence never full. *)
Definition task_status : rparams -> M dreply := fun p => log_errors (in_devmap (fun k _ =>
  d <-- device_at k;;
  ret (mkReply true (RTaskStatus (is_some (v_running d)) true))) p).

(** task_data (343-361) and get_data (631-639). *)
Definition task_data : rparams -> M dreply := fun p => log_errors (in_devmap (fun k _ =>
  d <-- device_at k;;
  upd_device k (fun d => mkDev (v_serial d) (v_running d) (v_tasks d) [] (v_last d) (v_run d) (v_run_task d)) ;;-
  match v_data d with
  | [] => ret (mkReply false RNone)
  | l => ret (mkReply true (RPoints l))
  end) p).

Definition with_key (k : key) : rparams := mkRp (Some k) None None None None None None None.

(** task_stop (327-341) and stop_task (608-614). *)
Definition task_stop : rparams -> M dreply := fun p => log_errors (in_devmap (fun k _ =>
  device_at k ;;-
  upd_device k (fun d => mkDev (v_serial d) (v_running d) (v_tasks d) (v_data d) (v_last d) (v_run d) false) ;;-
  r <-- task_data (with_key k);;
  ret (mkReply true (dr_data r))) p).

(** ModelDevice.reset (661-684). *)
Definition reset_device (do_run : bool) (d : device) : device :=
  mkDev (v_serial d) None [] [] (v_last d) do_run false.

(** cmp_reset (146-159). *)
Definition cmp_reset : rparams -> M dreply := fun p => log_errors (in_devmap (fun k p =>
  device_at k ;;-
  upd_device k (reset_device (match rp_do_run p with Some b => b | None => true end)) ;;-
  ret (mkReply true RNone)) p).

(** cmp_teardown (126-144): the data of [task_status] is a dictionary with entries,
    hence true. *)
Definition cmp_teardown : rparams -> M dreply := fun p => log_errors (in_devmap (fun k p =>
  task_status (with_key k) ;;-
  task_stop (with_key k) ;;-
  (match rp_do_run p with Some _ => raise TypeError | None => ret tt end) ;;-
  cmp_reset (mkRp (Some k) None None None None None (Some false) None) ;;-
  mput (set_devmap (fun d => kdel d k)) ;;-
  ret (mkReply true RNone)) p).

(** cmp_set_attr (161-175): [set_attr] is decorated with [coerce_val]. *)
Definition cmp_set_attr (h : hw) : rparams -> M dreply := fun p => log_errors (in_devmap (fun k p =>
  name <-- need_arg (rp_attr p);;
  v <-- need_arg (rp_val p);;
  device_at k ;;-
  w <-- mres (coerce_val (h_parser h) (h_attrs h k) name v);;
  mput (note (EvSet k name w)) ;;-
  call (fun n => h_set h n k name w) ;;-
  ret (mkReply true (RVal w))) p).

(** cmp_get_attr (177-191). *)
Definition cmp_get_attr (h : hw) : rparams -> M dreply := fun p => log_errors (in_devmap (fun k p =>
  name <-- need_arg (rp_attr p);;
  device_at k ;;-
  v <-- call (fun n => h_get h n k name);;
  ret (mkReply true (RVal v))) p).

(** The loop of cmp_status (203-206). *)
Fixpoint read_status (h : hw) (k : key) (l : dict attr) (acc : dict pyval) : M (dict pyval) :=
  match l with
  | [] => ret acc
  | (name, a) :: r =>
      if at_status a
      then v <-- call (fun n => h_get h n k name);; read_status h k r (dset acc name v)
      else read_status h k r acc
  end.
(** cmp_status (193-210); an entry "attr" of the request would be passed to [get_attr] twice. *)
Definition cmp_status (h : hw) : rparams -> M dreply := fun p => log_errors (in_devmap (fun k p =>
  device_at k ;;-
  twice (is_some (rp_attr p) && existsb (fun na => at_status (snd na)) (h_attrs h k)) ;;-
  l <-- read_status h k (h_attrs h k) [];;
  d <-- device_at k;;
  ret (mkReply true (RStatus l (is_some (v_running d))))) p).

(** cmp_capabilities (212-223), cmp_attrs (225-236), cmp_constants (238-248). *)
Definition cmp_capabilities (h : hw) : rparams -> M dreply := fun p => log_errors (in_devmap (fun k _ =>
  device_at k ;;- caps <-- call (fun n => h_caps h n k);; ret (mkReply true (RNames caps))) p).
Definition cmp_attrs (h : hw) : rparams -> M dreply := fun p => log_errors (in_devmap (fun k _ =>
  device_at k ;;- ret (mkReply true (RAttrs (h_attrs h k)))) p).
Definition cmp_constants : rparams -> M dreply := fun p => log_errors (in_devmap (fun k _ =>
  device_at k ;;- ret (mkReply true ROther)) p).

(** cmp_last_data (250-266). *)
Definition cmp_last_data : rparams -> M dreply := fun p => log_errors (in_devmap (fun k _ =>
  d <-- device_at k;;
  match v_last d with
  | None => ret (mkReply false RNone)
  | Some x => ret (mkReply true (RPoints [x]))
  end) p).

(** cmp_measure (268-285), possibly overridden by one that raises. *)
Definition cmp_measure (h : hw) : rparams -> M dreply := fun p => log_errors (in_devmap (fun k _ =>
  call (fun n => match h_measure h n k with Some e => Err e | None => Ok tt end) ;;-
  d <-- device_at k;;
  match v_running d, v_tasks d with
  | Some _, _ => ret (mkReply false RNone)
  | None, _ :: _ => ret (mkReply false RNone)
  | None, [] =>
      upd_device k (fun d => mkDev (v_serial d) (v_running d) (v_tasks d ++ [IMeasure])
                       (v_data d) (v_last d) (v_run d) (v_run_task d)) ;;-
      ret (mkReply true RNone)
  end) p).

(** task_validate (363-413). *)
Definition iface_validate (h : hw) : rparams -> M dreply := fun p => log_errors (in_devmap (fun k p =>
  t <-- need_arg (rp_task p);;
  device_at k ;;-
  caps <-- call (fun n => h_caps h n k);;
  b <-- mres (task_validate (h_parser h) caps (h_attrs h k) t);;
  ret (mkReply b RNone)) p).

(** task_start (287-306). *)
Definition task_start (h : hw) : rparams -> M dreply := fun p => log_errors (in_devmap (fun k p =>
  t <-- need_arg (rp_task p);;
  r <-- iface_validate h (mkRp (Some k) None None None None (Some t) None None);;
  if negb (dr_ok r) then ret r
  else
    upd_device k (fun d => mkDev (v_serial d) (v_running d) (v_tasks d ++ [ITask t])
                     (v_data d) (v_last d) (v_run d) (v_run_task d)) ;;-
    ret (mkReply true (RTask t))) p).

(** ** Methods of the 2.0 interface (driverinterface_2_0/__init__.py)
    cmp_get_attr (226-240), cmp_status (242-259), cmp_capabilities (261-272), cmp_attrs
    (274-285), cmp_constants (287-297), cmp_last_data (299-315) and task_data (397-415)
    have the same bodies as in 2.1. *)

(** reset (721-728): [last_data] stays, the new thread is not started. *)
Definition reset_device20 (d : device) : device := mkDev (v_serial d) None [] [] (v_last d) true false.
(** cmp_reset (197-208). *)
Definition cmp_reset20 : rparams -> M dreply := fun p => log_errors (in_devmap (fun k _ =>
  device_at k ;;- upd_device k reset_device20 ;;- ret (mkReply true RNone)) p).

(** task_status (357-373). *)
Definition task_status20 : rparams -> M dreply := fun p => log_errors (in_devmap (fun k _ =>
  d <-- device_at k;;
  ret (mkReply true (RTaskStatus (is_some (v_running d)) (negb (is_some (v_running d)))))) p).

(** task_stop (375-395) and stop_task (671-674), which sets [do_run] to True. *)
Definition task_stop20 : rparams -> M dreply := fun p => log_errors (in_devmap (fun k _ =>
  device_at k ;;-
  upd_device k (fun d => mkDev (v_serial d) (v_running d) (v_tasks d) (v_data d) (v_last d) (v_run d) true) ;;-
  r <-- task_data (with_key k);;
  ret (mkReply true (dr_data r))) p).

(** cmp_teardown (177-195): the data of [task_status] is a dictionary with entries, hence
    true. *)
Definition cmp_teardown20 : rparams -> M dreply := fun p => log_errors (in_devmap (fun k _ =>
  task_status20 (with_key k) ;;-
  task_stop20 (with_key k) ;;-
  cmp_reset20 (with_key k) ;;-
  mput (set_devmap (fun d => kdel d k)) ;;-
  ret (mkReply true RNone)) p).

(** cmp_set_attr (210-224): the value is passed on as it is. *)
Definition cmp_set_attr20 (h : hw) : rparams -> M dreply := fun p => log_errors (in_devmap (fun k p =>
  name <-- need_arg (rp_attr p);;
  v <-- need_arg (rp_val p);;
  device_at k ;;-
  mput (note (EvSet k name v)) ;;-
  w <-- call (fun n => h_set20 h n k name v);;
  ret (mkReply true (RVal w))) p).

(** cmp_measure (317-332) and measure (560-564): a new thread is started. *)
Definition cmp_measure20 (h : hw) : rparams -> M dreply := fun p => log_errors (in_devmap (fun k _ =>
  call (fun n => match h_measure h n k with Some e => Err e | None => Ok tt end) ;;-
  d <-- device_at k;;
  match v_running d with
  | Some _ => ret (mkReply false RNone)
  | None =>
      upd_device k (fun d => mkDev (v_serial d) (v_running d) (v_tasks d) (v_data d) (v_last d) false true) ;;-
      ret (mkReply true RNone)
  end) p).

(** task_validate (417-459). *)
Definition iface_validate20 (h : hw) : rparams -> M dreply := fun p => log_errors (in_devmap (fun k p =>
  t <-- need_arg (rp_task p);;
  device_at k ;;-
  caps <-- call (fun n => h_caps h n k);;
  b <-- mres (task_validate20 (h_parser h) caps (h_attrs h k) t);;
  ret (mkReply b RNone)) p).

(** run (555-558): [Thread.start] raises RuntimeError if the thread was started before. *)
Definition run_thread (k : key) : M unit :=
  upd_device k (fun d => mkDev (v_serial d) (v_running d) (v_tasks d) (v_data d) (v_last d) (v_run d) true) ;;-
  d <-- device_at k;;
  if v_run d
  then upd_device k (fun d => mkDev (v_serial d) (v_running d) (v_tasks d) (v_data d) (v_last d) false true)
  else raise RuntimeError.
(** task_start (334-355). *)
Definition task_start20 (h : hw) : rparams -> M dreply := fun p => log_errors (in_devmap (fun k p =>
  t <-- need_arg (rp_task p);;
  r <-- iface_validate20 h (mkRp (Some k) None None None None (Some t) None None);;
  if negb (dr_ok r) then ret r
  else
    upd_device k (fun d => mkDev (v_serial d) (v_running d) (v_tasks d ++ [ITask t])
                     (v_data d) (v_last d) (v_run d) (v_run_task d)) ;;-
    run_thread k ;;-
    ret (mkReply true (RTask t))) p).

(** status (415-427) and reset (435-454); [quit] (429-433) is [reset].  They take no
    arguments: a request with parameters raises TypeError. *)
Definition no_args (p : rparams) : M unit :=
  match p with mkRp None None None None None None None None => ret tt | _ => raise TypeError end.
Definition iface_status : rparams -> M dreply := fun p => log_errors (
  no_args p ;;- d <-- mget i_devmap;; ret (mkReply true (RKeys (map fst d)))).
Definition iface_reset : rparams -> M dreply := fun p => log_errors (
  no_args p ;;-
  s <-- mget (fun s => s);;
  mfor (map fst (i_devmap s)) (fun k =>
    match i_ver s with
    | V21 =>
        task_stop (with_key k) ;;-
        cmp_reset (mkRp (Some k) None None None None None (Some false) None) ;;- ret tt
    | V20 =>                        (* 2.0: 481-503; it waits for the thread for a second *)
        upd_device k (fun d => if v_run d then d else
          mkDev (v_serial d) (v_running d) (v_tasks d) (v_data d) (v_last d) (v_run d) false) ;;-
        cmp_reset20 (with_key k) ;;- ret tt
    end) ;;-
  ret (mkReply true RNone)).

(** ** getattr(interface, cmd) *)

(** The component methods: all of them are wrapped in [log_errors] and [in_devmap]. *)
Definition component_methods : list string :=
  ["cmp_teardown"; "cmp_reset"; "cmp_set_attr"; "cmp_get_attr"; "cmp_status";
   "cmp_capabilities"; "cmp_attrs"; "cmp_constants"; "cmp_last_data"; "cmp_measure";
   "task_start"; "task_status"; "task_stop"; "task_data"; "task_validate"].

(** The attributes of an interface that are not callable (69-93). *)
Definition data_attributes (v : version) : list string :=
  ["version"; "idle_measurement_interval"; "devmap"; "settings"; "constants"]
  ++ match v with V21 => ["retries"] | V20 => [] end.

(** Component methods of a 2.1 interface by name. *)
Definition method21 (h : hw) (name : string) (p : rparams) : M dreply :=
  if String.eqb name "cmp_teardown" then cmp_teardown p
  else if String.eqb name "cmp_reset" then cmp_reset p
  else if String.eqb name "cmp_set_attr" then cmp_set_attr h p
  else if String.eqb name "cmp_get_attr" then cmp_get_attr h p
  else if String.eqb name "cmp_status" then cmp_status h p
  else if String.eqb name "cmp_capabilities" then cmp_capabilities h p
  else if String.eqb name "cmp_attrs" then cmp_attrs h p
  else if String.eqb name "cmp_constants" then cmp_constants p
  else if String.eqb name "cmp_last_data" then cmp_last_data p
  else if String.eqb name "cmp_measure" then cmp_measure h p
  else if String.eqb name "task_start" then task_start h p
  else if String.eqb name "task_status" then task_status p
  else if String.eqb name "task_stop" then task_stop p
  else if String.eqb name "task_data" then task_data p
  else iface_validate h p.

(** Component methods of a 2.0 interface by name. *)
Definition method20 (h : hw) (name : string) (p : rparams) : M dreply :=
  if String.eqb name "cmp_teardown" then cmp_teardown20 p
  else if String.eqb name "cmp_reset" then cmp_reset20 p
  else if String.eqb name "cmp_set_attr" then cmp_set_attr20 h p
  else if String.eqb name "cmp_get_attr" then cmp_get_attr h p
  else if String.eqb name "cmp_status" then cmp_status h p
  else if String.eqb name "cmp_capabilities" then cmp_capabilities h p
  else if String.eqb name "cmp_attrs" then cmp_attrs h p
  else if String.eqb name "cmp_constants" then cmp_constants p
  else if String.eqb name "cmp_last_data" then cmp_last_data p
  else if String.eqb name "cmp_measure" then cmp_measure20 h p
  else if String.eqb name "task_start" then task_start20 h p
  else if String.eqb name "task_status" then task_status20 p
  else if String.eqb name "task_stop" then task_stop20 p
  else if String.eqb name "task_data" then task_data p
  else iface_validate20 h p.

(** A component method of either version. *)
Definition component_method (h : hw) (name : string) (p : rparams) : M dreply :=
  fun s => match i_ver s with
           | V21 => method21 h name p s
           | V20 => method20 h name p s
           end.

(** [hasattr(interface, cmd)] (driver.py:291) *)
Definition has_attribute (h : hw) (v : version) (name : string) : bool :=
  mem name component_methods || mem name ["status"; "quit"; "reset"; "cmp_register"; "DeviceFactory"]
  || mem name (data_attributes v) || is_some (h_other h name).

(** [getattr(interface, cmd)(params)] (driver.py:293), for the names that get there:
    a data attribute is not callable; [quit] (429-433) takes no arguments and is not decorated;
    what [DeviceFactory] returns cannot be pickled. *)
Definition call_attribute (h : hw) (name : string) (p : rparams) : M dreply :=
  if mem name component_methods then component_method h name p
  else if String.eqb name "status" then iface_status p
  else if String.eqb name "quit" then no_args p ;;- iface_reset p
  else if String.eqb name "reset" then iface_reset p
  else if String.eqb name "DeviceFactory" then
    k <-- need_arg (rp_key p);; call (fun n => h_make h n k) ;;- ret (mkReply true RView)
  else match h_other h name with
       | Some f => call f
       | None => raise TypeError
       end.

(** ** The driver process *)

(** A component in the daemon's device file: driver, address, channel. *)
Record dcomp : Type := mkDcomp { dc_driver : string; dc_address : string; dc_channel : string }.

(** The loop body of tomato_driver_bootstrap (driver.py:55-80). *)
Definition boot_component (h : hw) (driver : string) (c : dcomp) : M unit :=
  if negb (String.eqb (dc_driver c) driver) then ret tt                         (* 56 *)
  else
    let k := (Some (dc_address c), Some (dc_channel c)) in                      (* 57 *)
    s <-- mget (fun s => s);;
    match kget (i_devmap s) k with
    | Some _ => ret tt                                                          (* 58-63 *)
    | None =>
        if match i_ver s with V21 => retries_of s k =? 3 | V20 => false end
        then ret tt                                                             (* 64-72 *)
        else
          mput (note (EvRegister true k)) ;;-
          cmp_register h (mkRp None (Some (dc_address c)) (Some (dc_channel c)) None None None None None) ;;-
          ret tt                                                                (* 74-80 *)
    end.
(** tomato_driver_bootstrap (36-81) with the components of the daemon's answer. *)
Definition bootstrap (h : hw) (driver : string) (l : list dcomp) : M unit :=
  mfor l (boot_component h driver).

(** The interval used by perform_idle_measurements (100-105). *)
Definition interval_of (s : iface) : option Z :=
  match i_imi s with Some x => x | None => i_class_imi s end.

(** perform_idle_measurements (84-114) at clock reading [now]. *)
Definition idle_measurements (h : hw) (now : Z) (last : option Z) : M (option Z) :=
  s <-- mget (fun s => s);;
  match interval_of s with
  | None => ret None                                                            (* 106-107 *)
  | Some imi =>
      if match last with Some t => now - t <? imi | None => false end
      then ret last                                                             (* 110-111 *)
      else
        mput (note (EvRound now)) ;;-
        mfor (map fst (i_devmap s)) (fun k =>
          component_method h "cmp_measure" (with_key k) ;;- ret tt) ;;-         (* 112-113 *)
        ret (Some now)
  end.

(** What the environment supplies in one turn of the main loop: a request if one is
    waiting, the components and the answer the daemon gives when asked, the clock, and
    what the worker threads have made of their components since the last turn. *)
Record turn_in : Type := mkTurn {
  ti_req : option dreq;
  ti_comps : list dcomp;
  ti_answer : option dreply;
  ti_clock : Z;
  ti_work : key -> device -> device
}.
(** The work of the threads: the object stays the same. *)
Definition worked (f : key -> device -> device) (s : iface) : iface :=
  set_devmap (map (fun kd => let d := f (fst kd) (snd kd) in
    (fst kd, mkDev (v_serial (snd kd)) (v_running d) (v_tasks d) (v_data d) (v_last d) (v_run d) (v_run_task d)))) s.

(** [cmp_register] requested by message (284-290): on success the reply is what the
    daemon answers to the message {"cmd": "component"}. *)
Definition manual_register (h : hw) (i : turn_in) (p : rparams) : M dreply :=
  mput (note (EvRegister false (rp_address p, rp_channel p))) ;;-
  r <-- cmp_register h p;;
  if dr_ok r
  then match ti_answer i with Some a => ret a | None => raise Blocked end
  else ret r.

(** The reply to a request (253-307). *)
Definition handle (h : hw) (driver : string) (i : turn_in) (q : dreq) : M dreply :=
  match rq_cmd q with
  | None => ret (mkReply false ROther)                                          (* 253-255 *)
  | Some cmd =>
      if String.eqb cmd "register" then                                         (* 256-269 *)
        bootstrap h driver (ti_comps i) ;;-
        s <-- mget (fun s => s);;
        match i_ver s with
        | V20 => raise AttributeError                     (* no attribute retries *)
        | V21 => ret (mkReply (negb (existsb (fun kn => negb (snd kn =? 0)) (i_retries s)))
                              (RRetries (i_retries s)))
        end
      else if String.eqb cmd "stop" then ret (mkReply true ROther)              (* 270-276 *)
      else if String.eqb cmd "settings" then                                    (* 277-283 *)
        match rq_params q with
        | None => raise KeyError
        | Some p => mput (set_imi (rp_imi p)) ;;- ret (mkReply true ROther)
        end
      else if String.eqb cmd "cmp_register" then                                (* 284-290 *)
        match rq_params q with
        | None => raise KeyError
        | Some p => manual_register h i p
        end
      else
        s <-- mget (fun s => s);;
        if has_attribute h (i_ver s) cmd then                                   (* 291-300 *)
          fun s =>
            match call_attribute h cmd (match rq_params q with Some p => p | None => no_params end) s with
            | (s', Err ValueError) | (s', Err AttributeError) => (s', Ok (mkReply false RNone))
            | other => other
            end
        else ret (mkReply false RNone)                                          (* 301-307 *)
  end.

(** [rep.send_pyobj(ret)] (309) pickles the reply. *)
Definition picklable (r : dreply) : bool :=
  match dr_data r with RView => false | _ => true end.

(** How a turn of the main loop ends: the loop goes on, it is left after a stop, the
    process dies of an exception, or it waits for ever. *)
Inductive dfate : Type := DServing | DLeft | DDied (e : exn) | DHung.

(** The exception with which the process ends (317-319): SystemExit is not caught. *)
Definition fate_of (e : exn) : dfate :=
  match e with SystemExit => DDied SystemExit | Blocked => DHung | _ => DDied RuntimeError end.

(** State of the process: the interface and [t_last]. *)
Record dproc : Type := mkProc { dp_iface : iface; dp_last : option Z }.

(** The idle part of a turn (312-316). *)
Definition idle_turn (h : hw) (i : turn_in) (p : dproc) : dproc * dfate :=
  match idle_measurements h (ti_clock i) (dp_last p) (dp_iface p) with
  | (s, Ok t) => (mkProc s t, DServing)
  | (s, Err RuntimeError) | (s, Err ValueError) | (s, Err AttributeError) =>
      (mkProc s (dp_last p), DServing)
  | (s, Err e) => (mkProc s (dp_last p), fate_of e)
  end.

(** One turn (249-316): new state, reply sent, fate. *)
Definition main_turn (h : hw) (driver : string) (p : dproc) (i : turn_in) : dproc * option dreply * dfate :=
  match ti_req i with
  | None => let (p', f) := idle_turn h i p in (p', None, f)
  | Some q =>
      match handle h driver i q (dp_iface p) with
      | (s, Err e) => (mkProc s (dp_last p), None, fate_of e)
      | (s, Ok r) =>
          if negb (picklable r) then (mkProc s (dp_last p), None, DDied RuntimeError)
          else if match rq_cmd q with Some c => String.eqb c "stop" | None => false end
          then (mkProc s (dp_last p), Some r, DLeft)
          else let (p', f) := idle_turn h i (mkProc s (dp_last p)) in (p', Some r, f)
      end
  end.

(** The same after the worker threads have run for a while. *)
Definition dturn (h : hw) (driver : string) (p : dproc) (i : turn_in) : dproc * option dreply * dfate :=
  main_turn h driver (mkProc (worked (ti_work i) (dp_iface p)) (dp_last p)) i.

(** A run of the main loop: it stops at the first turn whose fate is not [DServing]. *)
Fixpoint dturns (h : hw) (driver : string) (p : dproc) (l : list turn_in) : dproc * list (option dreply) * dfate :=
  match l with
  | [] => (p, [], DServing)
  | i :: r =>
      match dturn h driver p i with
      | (p', a, DServing) => let '(p'', as', f) := dturns h driver p' r in (p'', a :: as', f)
      | (p', a, f) => (p', [a], f)
      end
  end.

(** The state in which the main loop is entered (89-93, driver.py:223-246). *)
Definition new_iface (v : version) (imi : option (option Z)) (class_imi : option Z) : iface :=
  mkIface v [] [] imi class_imi 0 [].
Definition new_proc (v : version) (imi : option (option Z)) (class_imi : option Z) : dproc :=
  mkProc (new_iface v imi class_imi) None.
