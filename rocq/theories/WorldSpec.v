(** What the properties of a whole DAO mean, independently of how the model computes. *)
From Verif Require Import Base OMap OMapLemmas Assets PollModel PollSpec FundsModel MemberModel MemberSpec Msgs ControllerModel
  ControllerSpec TreasuryModel EnterpriseModel OutpostsModel WorldModel.

(** What the enterprise contract of the DAO stores about the others. *)
Definition wiring_of (A : addrs) (att : option addr) : components :=
  mk_components (a_governance A) (a_controller A) (a_treasury A) (a_outposts A) (a_funds A) (a_membership A) (a_council A) att.

(** A DAO that has just been created: eight different contracts that know each other, no proposals and no polls yet.
    Who the members are, the settings, the council, treasury and everything outside are arbitrary. *)
Record new_dao {X} (A : addrs) (w : world X) : Prop := mk_new_dao {
  nd_addrs : NoDup (dao_addrs A);
  nd_enterprise : en_finalized (w_enterprise w) = true;
  nd_wiring : exists att, en_components (w_enterprise w) = Some (wiring_of A att);
  nd_controller : exists e t g council treasuries,
    ctl_instantiate e (a_enterprise A) t g council [] treasuries = Ok (w_ctl w);
  nd_governance : w_gov w = gov_init (a_controller A);
  nd_membership : exists e i, member_instantiate e i = Ok (w_member w);
  nd_member_of : m_enterprise (members_of (w_member w)) = a_enterprise A;
  nd_hooks : okeys (m_hooks (members_of (w_member w))) = [a_controller A];
  nd_council : exists e i, member_instantiate e i = Ok (w_council w);
  nd_log : w_log w = []
}.

(** Block time never decreases. *)
Fixpoint timely (from : N) (ts : list tx) : Prop :=
  match ts with
  | [] => True
  | t :: rest => from <= e_time (tx_env t) /\ timely (e_time (tx_env t)) rest
  end.

(** Time of the last transaction. *)
Definition last_time (ts : list tx) : N := fold_left (fun _ t => e_time (tx_env t)) ts 0.

(** The contracts still run the modelled code, and fewer than 2^64 messages have been delivered. *)
Definition lasting {X} (w : world X) : Prop := w_upgraded w = false /\ N.of_nat (length (w_log w)) < 2 ^ 64.

(** * Custom messages of proposals *)

(** The messages a proposal makes the controller send as they are ([ExecuteMsgs]). *)
Definition customs (p : proposal_info) : list cosmos_msg :=
  flat_map (fun a => match a with
                     | PExecuteMsgs msgs => flat_map (fun m => match m with Some m => [m] | None => [] end) msgs
                     | _ => []
                     end) (pi_actions p).

(** The order to run the actions of a proposal. *)
Definition run_order (A : addrs) (id : N) : cosmos_msg := WasmExecute (a_controller A) (ToController (CExecuteActions id)) [].

(** The actions of proposal [id] have been run (and not rolled back). *)
Definition acted {X} (A : addrs) (w : world X) (id : N) : Prop := In (a_controller A, run_order A id) (w_log w).

(** How often proposal [id] was executed: calls of the controller that were not rolled back, by anyone. *)
Definition executions {X} (A : addrs) (w : world X) (id : N) : N :=
  N.of_nat (length (filter (fun sm => match snd sm with
                                      | WasmExecute to (ToController (CExecuteProposal i)) _ => (to =? a_controller A) && (i =? id)
                                      | _ => false
                                      end) (w_log w))).

(** How often the actions of proposal [id] were run (and not rolled back), by anyone's order. *)
Definition action_runs {X} (A : addrs) (w : world X) (id : N) : N :=
  N.of_nat (length (filter (fun sm => match snd sm with
                                      | WasmExecute to (ToController (CExecuteActions i)) _ => (to =? a_controller A) && (i =? id)
                                      | _ => false
                                      end) (w_log w))).

(** The message does not call the controller, the governance or the membership contract. *)
Definition harmless (A : addrs) (m : cosmos_msg) : Prop :=
  match m with
  | WasmExecute to _ _ => to <> a_controller A /\ to <> a_governance A /\ to <> a_membership A
  | _ => True
  end.

(** No proposal that was run used [ExecuteMsgs] to make the controller call itself, the governance contract or the
    membership contract. *)
Definition calm {X} (A : addrs) (w : world X) : Prop :=
  forall id p m, acted A w id -> oget (ct_proposals (w_ctl w)) id = Some p -> In m (customs p) -> harmless A m.

(** * Payments by the controller *)

Inductive item :=
| SentCoins (to : addr) (coins : list coin)
| SentCw20 (token to : addr) (amount : N)
| SentNft (collection to : addr) (token : N)
| SentElse.

Definition item_eq_dec (a b : item) : {a = b} + {a <> b}.
Proof. repeat decide equality. Defined.

(** What a message sent by [self] gives away: everything that could move its assets counts ([SentElse] if it is none
    of the three transfers); fetching an NFT to itself does not. *)
Definition payment (self : addr) (m : cosmos_msg) : list item :=
  match m with
  | BankSend to coins => [SentCoins to coins]
  | WasmExecute t (ToCw20 (Cw20Transfer to n)) [] => [SentCw20 t to n]
  | WasmExecute c (ToCw721 (Cw721Transfer to k)) [] => if to =? self then [] else [SentNft c to k]
  | WasmExecute _ (ToCw20 _) _ | WasmExecute _ (ToCw721 _) _ | WasmExecute _ (ToCw1155 _) _ | WasmExecute _ (ToOther _) _
  | WasmExecute _ _ (_ :: _) => [SentElse]
  | WasmExecute _ _ [] => []
  | WasmInstantiate _ _ _ | WasmMigrate _ _ _ | WasmUpdateAdmin _ _ | IbcTransfer _ _ _ _ _ _ _ _ | OtherMsg _ => [SentElse]
  end.

(** Everything the controller has given away so far. *)
Definition paid {X} (A : addrs) (w : world X) : list item :=
  flat_map (fun sm => if fst sm =? a_controller A then payment (a_controller A) (snd sm) else []) (w_log w).

(** No proposal that was run used [ExecuteMsgs] for messages that could give away what the controller holds. *)
Definition thrifty {X} (A : addrs) (w : world X) : Prop :=
  forall id p m, acted A w id -> oget (ct_proposals (w_ctl w)) id = Some p -> In m (customs p) ->
    payment (a_controller A) m = [].

(** The items of a deposit, handed to [to]. *)
Definition deposit_items (self to : addr) (a : deposit_asset) : list item :=
  match a with
  | DDenom d n => [SentCoins to [(d, n)]]
  | DCw20 t n => [SentCw20 t to n]
  | DCw721 c ts => if to =? self then [] else map (SentNft c to) ts
  end.

(** The documented rule: who gets a deposit. *)
Definition receiver (treasury depositor : addr) (s : poll_status) : addr :=
  match s with
  | Rejected QuorumNotReached | Rejected IsVetoOutcome => treasury
  | _ => depositor
  end.

(** What is due for one proposal: nothing before it is resolved, then its deposit, to the receiver. *)
Definition due_for (A : addrs) (g : gov) (id : N) (p : proposal_info) : list item :=
  match pi_executed_at p, pi_deposit p, oget (g_polls g) id with
  | Some _, Some d, Some pl => deposit_items (a_controller A) (receiver (a_treasury A) (dp_depositor d) (p_status pl)) (dp_asset d)
  | _, _, _ => []
  end.

(** The deposits of all resolved proposals. *)
Definition released {X} (A : addrs) (w : world X) : list item :=
  flat_map (fun kp => due_for A (w_gov w) (fst kp) (snd kp)) (elems (ct_proposals (w_ctl w))).

(** * Votes *)

(** Poll [id] is open for votes at [now], for a proposal of type [t]. *)
Definition open_poll {X} (w : world X) (t : proposal_type) (id now : N) : Prop :=
  exists p pl ends, oget (ct_proposals (w_ctl w)) id = Some p /\ pi_type p = t /\
    oget (g_polls (w_gov w)) id = Some pl /\ p_status pl = InProgress ends /\ now < ends.

(** Every vote on an open general proposal counts as much as the voter weighs. *)
Definition votes_current {X} (w : world X) (now : N) : Prop :=
  forall id voter v, open_poll w General id now -> get_vote (w_gov w) voter id = Some v ->
    v_amount v = weight_of (w_member w) voter.
