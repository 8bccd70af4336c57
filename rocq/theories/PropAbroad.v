(** C97: a DAO says to other chains what its votes order, and nothing else. *)
From Verif Require Import Base OMap OMapLemmas Assets PollModel PollSpec FundsModel FundsSpec MemberModel MemberSpec Msgs ControllerModel ControllerSpec
  TreasuryModel EnterpriseModel OutpostsModel OutpostsExamples WorldModel WorldSpec WorldExamples PurseSpec OrderSpec AbroadSpec AbroadFacts AbroadCases.

(** Every message to another chain answers the call to the outposts contract that was delivered right before it. *)
Theorem C97_said_abroad : forall (X : Type) (Out : outside X) A w0 ts w m before,
  new_dao A w0 -> outposts_instantiate (a_enterprise A) = Ok (w_outposts w0) -> w = world_run Out A w0 ts ->
  sent_after (w_log w) (a_outposts A) m before ->
  exists s om coins l, before = (s, to_outposts A om coins) :: l /\ answered Out A (w_outposts w) l s om [m].
Proof. exact said_abroad. Qed.
Print Assumptions C97_said_abroad.

(** Every call to the outposts contract that was accepted is answered at once, by exactly what it calls for. *)
Theorem C97_calls_answered : forall (X : Type) (Out : outside X) A w0 ts w s wm coins l,
  new_dao A w0 -> outposts_instantiate (a_enterprise A) = Ok (w_outposts w0) -> w = world_run Out A w0 ts ->
  sent_after (w_log w) s (WasmExecute (a_outposts A) wm coins) l ->
  exists om ms later, wm = ToOutposts om /\ answered Out A (w_outposts w) l s om ms /\
    w_log w = later ++ map (pair (a_outposts A)) ms ++ (s, to_outposts A om coins) :: l.
Proof. exact called_abroad. Qed.
Print Assumptions C97_calls_answered.

(** The contracts that the DAO addresses on other chains were reported by the proxies that had been told to make them. *)
Theorem C97_known_abroad : forall (X : Type) (Out : outside X) A w0 ts w ch a,
  new_dao A w0 -> outposts_instantiate (a_enterprise A) = Ok (w_outposts w0) -> w = world_run Out A w0 ts ->
  oget (op_proxies (w_outposts w)) ch = Some a \/ oget (op_treasuries (w_outposts w)) ch = Some a -> reported Out A (w_log w) ch a.
Proof. exact known_abroad. Qed.
Print Assumptions C97_known_abroad.

(** An order to a treasury on another chain is one that a proposal whose actions were run means, addressed to the proxy and the treasury known there. *)
Theorem C97_orders_abroad : forall (X : Type) (Out : outside X) A w0 ts w sp sc d n receiver deadline t wm cs report before,
  new_dao A w0 -> outposts_instantiate (a_enterprise A) = Ok (w_outposts w0) -> w = world_run Out A w0 ts -> N.of_nat (length (w_log w)) < 2 ^ 64 ->
  sent_after (w_log w) (a_outposts A) (IbcTransfer sp sc d n receiver deadline (WasmExecute t wm cs) report) before ->
  exists tm x coins l, before = (a_controller A, to_outposts A (OpExecute tm x) coins) :: l /\ commanded A w l (to_outposts A (OpExecute tm x) coins) /\
    wm = ToTreasury tm /\ cs = [] /\ oget (op_proxies (w_outposts w)) (x_chain x) = Some receiver /\ oget (op_treasuries (w_outposts w)) (x_chain x) = Some t /\
    sp = x_src_port x /\ sc = x_src_channel x /\ d = ULUNA /\ n = 1 /\ report = None.
Proof. exact orders_abroad. Qed.
Print Assumptions C97_orders_abroad.

(** That proposal has passed, if no custom message interferes. *)
Theorem C97_orders_voted : forall (X : Type) (Out : outside X) A w0 ts w sp sc d n receiver deadline t wm cs report before,
  new_dao A w0 -> outposts_instantiate (a_enterprise A) = Ok (w_outposts w0) -> w = world_run Out A w0 ts -> N.of_nat (length (w_log w)) < 2 ^ 64 ->
  timely 0 ts -> calm A w ->
  sent_after (w_log w) (a_outposts A) (IbcTransfer sp sc d n receiver deadline (WasmExecute t wm cs) report) before ->
  exists tm x coins id p a pl b o k, wm = ToTreasury tm /\ oget (op_treasuries (w_outposts w)) (x_chain x) = Some t /\
    In id (ran A before) /\ oget (ct_proposals (w_ctl w)) id = Some p /\ In a (pi_actions p) /\ commands A a (to_outposts A (OpExecute tm x) coins) /\
    pi_executed_at p = Some b /\ oget (g_polls (w_gov w)) id = Some pl /\ p_status pl = Passed o k.
Proof. exact voted_abroad. Qed.
Print Assumptions C97_orders_voted.

(** Conversely: the orders of proposals whose actions were run have been sent there. *)
Theorem C97_orders_sent : forall (X : Type) (Out : outside X) A w0 ts w id p a tm x,
  new_dao A w0 -> outposts_instantiate (a_enterprise A) = Ok (w_outposts w0) -> w = world_run Out A w0 ts -> lasting w ->
  In id (runs A w) -> oget (ct_proposals (w_ctl w)) id = Some p -> In a (pi_actions p) -> order_abroad a = Some (tm, x) ->
  exists r t deadline, oget (op_proxies (w_outposts w)) (x_chain x) = Some r /\ oget (op_treasuries (w_outposts w)) (x_chain x) = Some t /\
    In (a_outposts A, parcel x r deadline (WasmExecute t (ToTreasury tm) []) None) (w_log w).
Proof. exact carried_abroad. Qed.
Print Assumptions C97_orders_sent.

Example C97_abroad_nonvacuous : new_dao dao_at (dao false) /\ outposts_instantiate (a_enterprise dao_at) = Ok (w_outposts (dao false)) /\
  timely 0 voyage /\ lasting abroad /\ calm dao_at abroad /\
  oget (op_proxies (w_outposts abroad)) 70 = Some 9001 /\ oget (op_treasuries (w_outposts abroad)) 70 = Some 9002 /\
  runs dao_at abroad = [2; 1] /\ order_abroad (PRequestFunding (Some to_juno) 99 [(Native 7, 5)]) = Some (TrSpend 99 [(Native 7, 5)], to_juno) /\
  sent_by 5 abroad = [funding;
    parcel to_juno 900 2101000000000 (WasmInstantiate (Some 9001) 802 (InitTreasury 9001 (Some [Native 7]) None)) (Some (report_to dao_at to_juno 2));
    parcel to_juno 900 2002000000000 (WasmInstantiate None 801 (InitProxy 1400052)) (Some (report_to dao_at to_juno 1))] /\
  (exists l, sent_after (w_log abroad) 5 funding ((3, to_outposts dao_at (OpExecute (TrSpend 99 [(Native 7, 5)]) to_juno) []) :: l)).
Proof. exact abroad_case. Qed.
