(** C92: stakes and rewards are paid only to those who claim them. *)
From Verif Require Import Base OMap OMapLemmas Assets PollModel PollSpec FundsModel MemberModel MemberSpec Msgs ControllerModel ControllerSpec
  TreasuryModel EnterpriseModel OutpostsModel WorldModel WorldSpec WorldExamples LedgerExamples PassSpec SentFacts PassCases.

(** The membership contract sends nothing but reports, and payments of what is staked in it to people who claimed before. *)
Theorem C92_membership_sends : forall (X : Type) (Out : outside X) A w0 ts w l1 m l2,
  new_dao A w0 -> w = world_run Out A w0 ts -> w_log w = l1 ++ (a_membership A, m) :: l2 ->
  reporting m \/ exists v x, stake_payment (w_member w) v m /\ claims_stake (a_membership A) v x /\ In x l2.
Proof. exact membership_sends. Qed.
Print Assumptions C92_membership_sends.

Example C92_sent_nonvacuous :
  new_dao dao_at (ledger_dao false) /\
  exists l1 l2 l3,
    w_log token_world = l1 ++ (7, WasmExecute 90 (ToCw20 (Cw20Transfer 12 10)) []) :: (12, WasmExecute 7 (ToMembership (TokenMsg (TCommon (SClaim None)))) []) :: l2 /\
    w_log token_world = (6, BankSend 11 [(70, 22)]) :: (11, WasmExecute 6 (ToFunds (FClaim 11 [70] [])) []) :: l3.
Proof. exact sent_case. Qed.

(** So does the contract of the council. *)
Theorem C92_council_sends : forall (X : Type) (Out : outside X) A w0 ts w l1 m l2,
  new_dao A w0 -> w = world_run Out A w0 ts -> w_log w = l1 ++ (a_council A, m) :: l2 ->
  reporting m \/ exists v x, stake_payment (w_council w) v m /\ claims_stake (a_council A) v x /\ In x l2.
Proof. exact council_sends. Qed.
Print Assumptions C92_council_sends.

(** The distributor sends nothing but rewards, to people who claimed them before, of the kinds that they named. *)
Theorem C92_distributor_sends : forall (X : Type) (Out : outside X) A w0 ts w l1 m l2,
  new_dao A w0 -> w = world_run Out A w0 ts -> w_log w = l1 ++ (a_funds A, m) :: l2 ->
  exists v x, reward_payment (a_funds A) v x m /\ In x l2.
Proof. exact distributor_sends. Qed.
Print Assumptions C92_distributor_sends.

(** The governance contract sends nothing at all. *)
Theorem C92_governance_silent : forall (X : Type) (Out : outside X) A w0 ts w m,
  new_dao A w0 -> w = world_run Out A w0 ts -> ~ In (a_governance A, m) (w_log w).
Proof. exact governance_silent. Qed.
Print Assumptions C92_governance_silent.
