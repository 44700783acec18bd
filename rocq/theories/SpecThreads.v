(** What several threads may see when every call, and every reaction of an
    observer to a message, takes effect at one instant between its beginning and
    its end. No mutexes and no statements: the effects are the functions of the
    models that know nothing of threads. A call of start or stop takes effect on
    its node at one instant, too; after it and before the call returns, the receive
    threads begin, get their observers, and end. *)
From Verif Require Import Base HMap ModelCodec ModelMessages ModelObject ModelTransport ModelNode ModelController ModelDevice ModelThreads SpecNode.
From Verif Require ModelLocks.

Section S.
  Context {U : Type}.

  (** The effect of a call on the node or controller it uses, and its answer. *)
  Inductive effect : Type :=
  | AtNode (n : nat) (f : nstate U -> outcome (nstate U * answer))
  | AtCtrl (c : nat) (f : cstate -> outcome (cstate * answer))
  | AtChan (n : nat) (ch : N).

  Definition effect_of {P : Profile} {HO : HashOrder} {O : OS} (c : call U) : effect :=
    match c with
    | CSetProperty _ n oc code data => AtNode n (fun '(u, x, w) =>
        let '(ok, x) := device_node_set_property x oc code data in Ret (u, x, w, VBool ok))
    | CProperty _ n oc code => AtNode n (fun '(u, x, w) => Ret (u, x, w, VData (device_node_property x oc code)))
    | CSetHandler _ n h | CAddHandler n h => AtNode n (fun '(u, x, w) => Ret (u, node_add_handler x (HUser h), w, VBool true))
    | CDeviceObject _ n o | CAddObject n o => AtNode n (fun '(u, x, w) => let! x := node_add_object x o in Ret (u, x, w, VBool true))
    | CAddObserver n o | CCtrlObserver _ n o => AtNode n (fun '(u, x, w) => Ret (u, node_add_observer x o, w, VBool true))
    | CSend n to m => AtNode n (fun '(u, x, w) => let '(ok, m, x, w) := node_send w x to m in Ret (u, x, w, VSent ok m))
    | CPost n to m => AtNode n (fun '(u, x, w) => let '(ch, m, x, w) := node_post w x to m in Ret (u, x, w, VPosted ch m))
    | CNotify n m => AtNode n (fun '(u, x, w) => let '(ok, m, x, w) := node_notify w x m in Ret (u, x, w, VSent ok m))
    | CAnnounce n => AtNode n (fun '(u, x, w) => let '(ok, x, w) := node_announce w x in Ret (u, x, w, VBool ok))
    | CSearch _ n code => AtNode n (fun '(u, x, w) => let '(ok, x, w) := controller_search_object w x code in Ret (u, x, w, VBool ok))
    | CCtrlSend _ n r m => AtNode n (fun '(u, x, w) => let '(ok, m, x, w) := controller_send w x r m in Ret (u, x, w, VSent ok m))
    | CCtrlPost _ n r m => AtNode n (fun '(u, x, w) => let '(ch, m, x, w) := controller_post w x r m in Ret (u, x, w, VPosted ch m))
    | CStart _ n => AtNode n (fun '(u, x, w) => let! r := node_start w x in let '(ok, x, w) := r in Ret (u, x, w, VBool ok))
    | CStop _ n => AtNode n (fun '(u, x, w) => let! r := node_stop x in Ret (u, snd r, w, VBool (fst r)))
    | CRunning n => AtNode n (fun '(u, x, w) => Ret (u, x, w, VBool (manager_running (n_mgr x))))
    | CWait n ch => AtChan n ch
    | CNodes c => AtCtrl c (fun '(l, w) => let! x := controller_nodes w l in Ret (l, snd x, VNodes (fst x)))
    end.

  (** What a call has to do with the receive threads of its node, given the data of
      the node at the instant of its effect: start begins one for every interface
      that can be bound, and ends them again when there is none of a kind, or
      registers every observer with every server; stop ends all. *)
  Definition registrations (x : node U) : list act :=
    flat_map (fun o => [Register Ucast 0 o; Register Mcast 0 o]) (n_observers x).
  Definition endings : list act := [Stop Ucast 0; Stop Mcast 0].
  Definition acts_of {O : OS} (c : call U) (d : nstate U) : list act :=
    let '(_, x, w) := d in
    match c with
    | CStart _ _ =>
      let m := n_mgr x in
      if manager_running m then registrations x
      else
        let '(ok, l, w) := mcast_start w (mg_mcast m) in
        repeat (Spawn Mcast) (length l - length (mg_mcast m)) ++
        if negb ok then endings
        else
          let '(ok, l, w) := ucast_start w (mg_ucast m) in
          repeat (Spawn Ucast) (length l - length (mg_ucast m)) ++
          if negb ok then endings else registrations x
    | CStop _ _ => endings
    | _ => []
    end.

  (** The mutexes a call needs: when one of them is poisoned, the call panics. *)
  Definition locks_of (c : call U) : list ModelLocks.lock :=
    match c with
    | CSetProperty d n _ _ _ | CProperty d n _ _ | CSetHandler d n _ | CDeviceObject d n _ => [ModelLocks.Dev d; ModelLocks.Node n]
    | CSearch c n _ | CCtrlSend c n _ _ | CCtrlPost c n _ _ | CCtrlObserver c n _ => [ModelLocks.Dev c; ModelLocks.Node n]
    | CAddObject n _ | CAddHandler n _ | CAddObserver n _ | CSend n _ _ | CPost n _ _ | CNotify n _ | CAnnounce n => [ModelLocks.Node n]
    | CStart (Some d) n | CStop (Some d) n => [ModelLocks.Dev d; ModelLocks.Node n]
    | CStart None n | CStop None n | CRunning n => [ModelLocks.Node n]
    | CNodes c => [ModelLocks.Dev c]
    | CWait _ _ => []
    end.

  (** The answer of a call that gives up because somebody else is busy. *)
  Definition refusal (c : call U) : option answer :=
    match c with CCtrlSend _ _ _ m => Some (VSent false m) | _ => None end.

  (** Observers that react to a message. *)
  Inductive reaction : Type := ReactNode (n : nat) | ReactCtrl (c : nat).
  Fixpoint reactions (l : list obs) : list reaction :=
    match l with
    | [] => []
    | RNode _ n :: r => ReactNode n :: reactions r
    | RCtrl _ c :: r => ReactCtrl c :: reactions r
    | ROther _ :: r => reactions r
    end.

  (** What a thread is doing: nothing; a call that has not taken effect; one that
      has, with the answer [v] and what is to be done before it returns. A receive
      thread waits, has got a message, gives it to the observers that remain, or has
      returned. [Gone]: the thread has panicked. *)
  Inductive status : Type :=
  | Idle
  | Pending (c : call U)
  | Answered (c : call U) (v : answer) (rest : list act)
  | Listening
  | Got (m : message)
  | Busy (m : message) (rest : list reaction)
  | Ended
  | Gone.

  Record state : Type := State {
    a_bad : ModelLocks.lock -> bool;
    a_nodes : nat -> nstate U;
    a_ctrls : nat -> cstate;
    a_status : nat -> status;
    a_life : receivers;
    a_history : list (event U);
    a_reads : nat -> N -> nat }.
  Definition put {A} (f : nat -> A) (k : nat) (v : A) : nat -> A := fun x => if Nat.eqb x k then v else f x.
  Definition a_set (a : state) t x := State (a_bad a) (a_nodes a) (a_ctrls a) (put (a_status a) t x) (a_life a) (a_history a) (a_reads a).
  Definition a_seen (a : state) e := State (a_bad a) (a_nodes a) (a_ctrls a) (a_status a) (a_life a) (a_history a ++ [e]) (a_reads a).
  Definition a_node (a : state) n d := State (a_bad a) (put (a_nodes a) n d) (a_ctrls a) (a_status a) (a_life a) (a_history a) (a_reads a).
  Definition a_ctrl (a : state) c d := State (a_bad a) (a_nodes a) (put (a_ctrls a) c d) (a_status a) (a_life a) (a_history a) (a_reads a).
  Definition a_poison (a : state) (L : list ModelLocks.lock) :=
    State (fun l => a_bad a l || if in_dec ModelLocks.lock_eq_dec l L then true else false) (a_nodes a) (a_ctrls a) (a_status a) (a_life a) (a_history a) (a_reads a).

  (** The messages which the receiver [ch] of the node has been given. *)
  Definition given (ch : N) (d : nstate U) : list message :=
    map snd (filter (fun x => fst x =? ch) (deliveries (w_trace (snd d)))).
  Definition a_read (a : state) n ch :=
    State (a_bad a) (a_nodes a) (a_ctrls a) (a_status a) (a_life a) (a_history a)
      (fun n' c' => if Nat.eqb n' n && (c' =? ch) then S (a_reads a n' c') else a_reads a n' c').
  Definition a_lives (a : state) x := State (a_bad a) (a_nodes a) (a_ctrls a) (a_status a) x (a_history a) (a_reads a).

  (** Some other thread is in a call or has a message at hand. *)
  Definition active (st : status) : Prop :=
    match st with Pending _ | Answered _ _ _ | Got _ | Busy _ _ => True | Idle | Listening | Ended | Gone => False end.
  Definition others_active (a : state) (t : nat) : Prop := exists t', t' <> t /\ active (a_status a t').

  Definition observed {P : Profile} {HO : HashOrder} {O : OS} (m : message) (d : nstate U) : outcome (nstate U) :=
    let '(u, x, w) := d in node_observe w u x m.

  Inductive astep {P : Profile} {HO : HashOrder} {O : OS} {Uu : Uuids} (db : list object) (what : observer -> obs) (net : bool)
    (a : state) : state -> Prop :=
  (** A thread makes a call, which takes effect later and then returns. *)
  | a_call t c : a_status a t = Idle -> astep db what net a (a_seen (a_set a t (Pending c)) (ECall t c))
  | a_at_node t c n f d v : a_status a t = Pending c -> effect_of c = AtNode n f ->
      (forall l, In l (locks_of c) -> a_bad a l = false) -> f (a_nodes a n) = Ret (d, v) ->
      astep db what net a (a_node (a_set a t (Answered c v (acts_of c (a_nodes a n)))) n d)
  | a_at_ctrl t c x f d v : a_status a t = Pending c -> effect_of c = AtCtrl x f ->
      (forall l, In l (locks_of c) -> a_bad a l = false) -> f (a_ctrls a x) = Ret (d, v) ->
      astep db what net a (a_ctrl (a_set a t (Answered c v [])) x d)
  (** A receiver gives out its messages in turn, or nothing. *)
  | a_got t n ch m : a_status a t = Pending (CWait n ch) -> nth_error (given ch (a_nodes a n)) (a_reads a n ch) = Some m ->
      astep db what net a (a_read (a_set a t (Answered (CWait n ch) (VGot (Some m)) [])) n ch)
  | a_waited t n ch : a_status a t = Pending (CWait n ch) ->
      astep db what net a (a_set a t (Answered (CWait n ch) (VGot None) []))
  | a_refused t c v : a_status a t = Pending c -> refusal c = Some v ->
      others_active a t \/ (exists l, In l (locks_of c) /\ a_bad a l = true) ->
      astep db what net a (a_set a t (Answered c v []))
  | a_return t c v : a_status a t = Answered c v [] -> astep db what net a (a_seen (a_set a t Idle) (EReturn t c v))
  (** Before start or stop returns, receive threads of its node begin; *)
  | a_spawn t c v n f k r : a_status a t = Answered c v (Spawn k :: r) -> effect_of c = AtNode n f ->
      astep db what net a (a_lives (a_set (a_set a (next (a_life a)) Listening) t (Answered c v r)) (spawn (a_life a) n k))
  (** ... get an observer, one after another; *)
  | a_register t c v n f k j o r t' : a_status a t = Answered c v (Register k j o :: r) -> effect_of c = AtNode n f ->
      nth_error (srvs (a_life a) n k) j = Some t' ->
      astep db what net a (a_lives (a_set a t (Answered c v (Register k (S j) o :: r))) (register (a_life a) t' o))
  | a_registered t c v n f k j o r : a_status a t = Answered c v (Register k j o :: r) -> effect_of c = AtNode n f ->
      nth_error (srvs (a_life a) n k) j = None -> astep db what net a (a_set a t (Answered c v r))
  (** ... have ended, one after another, and are forgotten. *)
  | a_join t c v n f k j r t' : a_status a t = Answered c v (Stop k j :: r) -> effect_of c = AtNode n f ->
      nth_error (srvs (a_life a) n k) j = Some t' -> a_status a t' = Ended ->
      astep db what net a (a_set a t (Answered c v (Stop k (S j) :: r)))
  | a_stopped t c v n f k j r : a_status a t = Answered c v (Stop k j :: r) -> effect_of c = AtNode n f ->
      nth_error (srvs (a_life a) n k) j = None ->
      astep db what net a (a_lives (a_set a t (Answered c v r)) (set_srvs (a_life a) n k []))
  (** A receive thread gets a message and gives it to its observers in turn; it
      ends when it has no message at hand. *)
  | a_datagram t data from m : a_status a t = Listening -> net = true -> octets data ->
      msg_parse msg_new (firstn MAX_PACKET_SIZE data) = Ret (true, m) ->
      astep db what net a (a_seen (a_set a t (Got (msg_set_from m from))) (EGot t (msg_set_from m from)))
  | a_deliver t m : a_status a t = Got m -> astep db what net a (a_set a t (Busy m (reactions (map what (regs (a_life a) t)))))
  | a_ends t : a_status a t = Listening -> astep db what net a (a_set a t Ended)
  | a_react_node t m n r d : a_status a t = Busy m (ReactNode n :: r) -> a_bad a (ModelLocks.Node n) = false ->
      observed m (a_nodes a n) = Ret d ->
      astep db what net a (a_node (a_set a t (Busy m r)) n d)
  | a_react_ctrl t m c r d w : a_status a t = Busy m (ReactCtrl c :: r) -> a_bad a (ModelLocks.Dev c) = false ->
      controller_observe db (snd (a_ctrls a c)) (fst (a_ctrls a c)) m = Ret (d, w) ->
      astep db what net a (a_ctrl (a_set a t (Busy m r)) c (d, w))
  | a_missed_node t m n r : a_status a t = Busy m (ReactNode n :: r) ->
      others_active a t \/ a_bad a (ModelLocks.Node n) = true ->
      astep db what net a (a_set a t (Busy m r))
  | a_missed_ctrl t m c r : a_status a t = Busy m (ReactCtrl c :: r) ->
      others_active a t \/ a_bad a (ModelLocks.Dev c) = true ->
      astep db what net a (a_set a t (Busy m r))
  | a_ready t m : a_status a t = Busy m [] -> astep db what net a (a_set a t Listening)
  (** Panics: the thread is gone, and some of the mutexes of its call are
      poisoned. *)
  | a_call_panics t c L : a_status a t = Pending c -> incl L (locks_of c) ->
      (exists n f, effect_of c = AtNode n f /\ f (a_nodes a n) = Panic) \/
      (exists x f, effect_of c = AtCtrl x f /\ f (a_ctrls a x) = Panic) \/
      (exists l, In l (locks_of c) /\ a_bad a l = true) ->
      astep db what net a (a_poison (a_set a t Gone) L)
  | a_node_panics t m n r : a_status a t = Busy m (ReactNode n :: r) -> observed m (a_nodes a n) = Panic ->
      astep db what net a (a_poison (a_set a t Gone) [ModelLocks.Node n])
  | a_ctrl_panics t m c r : a_status a t = Busy m (ReactCtrl c :: r) ->
      controller_observe db (snd (a_ctrls a c)) (fst (a_ctrls a c)) m = Panic ->
      astep db what net a (a_poison (a_set a t Gone) [ModelLocks.Dev c])
  | a_decoder_panics t data : a_status a t = Listening -> net = true -> octets data ->
      msg_parse msg_new (firstn MAX_PACKET_SIZE data) = Panic -> astep db what net a (a_set a t Gone)
  (** ... and so is a receive thread that meets a mutex poisoned by another one, *)
  | a_after_panic t m r t' : a_status a t = Busy m r -> a_status a t' = Gone -> astep db what net a (a_set a t Gone)
  (** ... and a call of start or stop that meets a receive thread which is gone. *)
  | a_register_panics t c v n f k j o r t' : a_status a t = Answered c v (Register k j o :: r) -> effect_of c = AtNode n f ->
      nth_error (srvs (a_life a) n k) j = Some t' -> a_status a t' = Gone ->
      astep db what net a (a_poison (a_set a t Gone) (locks_of c))
  | a_join_panics t c v n f k j r t' : a_status a t = Answered c v (Stop k j :: r) -> effect_of c = AtNode n f ->
      nth_error (srvs (a_life a) n k) j = Some t' -> a_status a t' = Gone ->
      astep db what net a (a_poison (a_set a t Gone) (locks_of c)).

  Inductive asteps {P : Profile} {HO : HashOrder} {O : OS} {Uu : Uuids} (db : list object) (what : observer -> obs) (net : bool) : state -> state -> Prop :=
  | asteps_refl a : asteps db what net a a
  | asteps_step a a' a'' : asteps db what net a a' -> astep db what net a' a'' -> asteps db what net a a''.

  (** [k] threads of the application, and no other threads yet. *)
  Definition a_begins (ns : nat -> nstate U) (cs : nat -> cstate) (k : nat) : state :=
    State (fun _ => false) ns cs (fun _ => Idle) (Receivers (fun _ _ => []) (fun _ => []) k) [] (fun _ _ => 0%nat).
End S.
Arguments effect U : clear implicits.
Arguments status U : clear implicits.
Arguments state U : clear implicits.
