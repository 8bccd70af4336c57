(** What it means that the actions of a proposal are carried out in full, independently of how the model computes. *)
From Verif Require Import Base OMap Assets PollModel FundsModel MemberModel Msgs ControllerModel TreasuryModel EnterpriseModel OutpostsModel
  WorldModel WorldSpec PurseSpec OrderSpec.

(** The messages that an action of a proposal means in a DAO of type [t], in their order. *)
Definition meant (A : addrs) (t : dao_type) (a : proposal_action) : list cosmos_msg :=
  match a with
  | PUpdateMetadata u => [enterprise_call A (EnUpdateMetadata u)]
  | PUpdateGovConfig u =>
      match gu_unlocking_period u, t with
      | Change d, DaoToken => [WasmExecute (a_membership A) (ToMembership (TokenMsg (TCommon (SUpdatePeriod (Some d))))) []]
      | Change d, DaoDenom => [WasmExecute (a_membership A) (ToMembership (DenomMsg (DCommon (SUpdatePeriod (Some d))))) []]
      | Change d, DaoNft => [WasmExecute (a_membership A) (ToMembership (NftMsg (NUpdatePeriod (Some d)))) []]
      | _, _ => []
      end
  | PUpdateCouncil c =>
      [WasmExecute (a_council A) (ToMembership (MultisigMsg (MSetMembers (match c with Some c => map (fun u => (u, 1)) (cs_members c) | None => [] end)))) []]
  | PUpdateAssets target add remove => [treasury_call A target (TrUpdateAssets add remove)]
  | PUpdateNfts target add remove => [treasury_call A target (TrUpdateNfts add remove)]
  | PRequestFunding target to assets => [treasury_call A target (TrSpend to assets)]
  | PUpgradeDao v msgs => [enterprise_call A (EnUpgradeDao v msgs)]
  | PExecuteMsgs msgs => given msgs
  | PExecuteTreasuryMsgs msgs target => [treasury_call A target (TrExecute msgs)]
  | PExecuteEnterpriseMsgs msgs => [enterprise_call A (EnExecuteMsgs msgs)]
  | PModifyMultisig edits => [WasmExecute (a_membership A) (ToMembership (MultisigMsg (MUpdateMembers edits))) []]
  | PDistributeFunds funds => [treasury_call A None (TrDistribute funds (a_funds A))]
  | PUpdateMinimumWeight x => [WasmExecute (a_funds A) (ToFunds (FUpdateMinimum x)) []]
  | PDeployTreasury d => [WasmExecute (a_outposts A) (ToOutposts (OpDeploy d)) []]
  end.

(** [k] occurs in [l], in the same order, perhaps with other things in between. *)
Inductive in_turn {T} : list T -> list T -> Prop :=
| it_nil l : in_turn [] l
| it_take x k l : in_turn k l -> in_turn (x :: k) (x :: l)
| it_skip x k l : in_turn k l -> in_turn k (x :: l).

(** The messages that the actions mean were delivered, as messages of the controller and in the order of the actions; [later] is what was
    delivered, the latest first. *)
Definition carried_out (A : addrs) (t : dao_type) (actions : list proposal_action) (later : list (addr * cosmos_msg)) : Prop :=
  in_turn (map (fun m => (a_controller A, m)) (flat_map (meant A t) actions)) (rev later).

(** Messages of a form that the controller sends by itself too: keeping the polls, running actions, reporting weights, deploying treasuries,
    and plain transfers. *)
Definition errand (A : addrs) (m : cosmos_msg) : bool :=
  match m with
  | BankSend _ _ => true
  | WasmExecute to (ToGovernance _) _ => to =? a_governance A
  | WasmExecute to (ToController (CExecuteActions _)) _ => to =? a_controller A
  | WasmExecute to (ToFunds (FUpdateUserWeights _)) _ => to =? a_funds A
  | WasmExecute to (ToOutposts (OpDeploy _)) _ => to =? a_outposts A
  | WasmExecute _ (ToCw20 (Cw20Transfer _ _)) _ | WasmExecute _ (ToCw721 (Cw721Transfer _ _)) _ => true
  | _ => false
  end.
Definition matters (A : addrs) (l : list cosmos_msg) : list cosmos_msg := filter (fun m => negb (errand A m)) l.

(** The messages that the proposal [id] means. *)
Definition meaning {X} (A : addrs) (w : world X) (id : N) : list cosmos_msg :=
  match oget (ct_proposals (w_ctl w)) id with Some p => flat_map (meant A (en_type (w_enterprise w))) (pi_actions p) | None => [] end.
