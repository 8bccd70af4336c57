(** The contracts the factory creates come to life: every instantiation it orders is run by the instantiated contract,
    and the finalizing call by the enterprise contract. The result is the first state of the composed model. *)
From Verif Require Import Base OMap Assets PollModel FundsModel MemberModel Msgs ControllerModel TreasuryModel EnterpriseModel
  OutpostsModel FactoryModel FactorySpec WorldModel.

(** The states of the contracts created so far, by address. *)
Record births := mk_births {
  bi_enterprise : omap enterprise;
  bi_ctl : omap ctl;
  bi_gov : omap gov;
  bi_member : omap member_state;
  bi_funds : omap funds;
  bi_treasury : omap treasury;
  bi_outposts : omap outposts
}.
Definition no_births : births := mk_births oempty oempty oempty oempty oempty oempty oempty.

(** One effect of the factory's transaction (contracts/enterprise-factory/src/contract.rs:150-778, see [deliver]): the
    [instantiate] entry point of the new contract, with the message the factory composed; the enterprise contract's
    [execute] for messages to it. All in one block [e]; [eo]: what the enterprise contract is told by the chain.
    Which code a code id stands for is taken from the kind of message (the version registry is trusted to list
    the right codes). Attestation, cw20 and cw721 contracts are outside the DAO. The payment to the outposts and the
    order to deploy the initial treasuries, sent last, are not part of this: they are ordinary calls of the factory
    to the DAO then complete (the first transactions of its history). *)
Definition birth (eo : en_oracle) (e : env) (factory : addr) (b : births) (x : effect) : res births :=
  match x with
  | Created a _ _ (InitEnterprise f r creation t v md) =>
      s <- enterprise_instantiate e f r creation t v md ;;
      Ok (mk_births (oset (bi_enterprise b) a s) (bi_ctl b) (bi_gov b) (bi_member b) (bi_funds b) (bi_treasury b) (bi_outposts b))
  | Created a _ _ (InitController en t g council treasuries) =>
      s <- ctl_instantiate e en t g council [] treasuries ;;
      Ok (mk_births (bi_enterprise b) (oset (bi_ctl b) a s) (bi_gov b) (bi_member b) (bi_funds b) (bi_treasury b) (bi_outposts b))
  | Created a _ _ (InitGovernance admin) =>
      admin <- addr_validate admin ;;
      Ok (mk_births (bi_enterprise b) (bi_ctl b) (oset (bi_gov b) a (gov_init admin)) (bi_member b) (bi_funds b) (bi_treasury b) (bi_outposts b))
  | Created a _ _ (InitMember i) =>
      s <- member_instantiate e i ;;
      Ok (mk_births (bi_enterprise b) (bi_ctl b) (bi_gov b) (oset (bi_member b) a s) (bi_funds b) (bi_treasury b) (bi_outposts b))
  | Created a _ _ (InitFunds admin en initial minimum) =>
      s <- funds_instantiate admin en minimum initial ;;
      Ok (mk_births (bi_enterprise b) (bi_ctl b) (bi_gov b) (bi_member b) (oset (bi_funds b) a s) (bi_treasury b) (bi_outposts b))
  | Created a _ _ (InitTreasury admin assets nfts) =>
      s <- treasury_instantiate admin assets nfts ;;
      Ok (mk_births (bi_enterprise b) (bi_ctl b) (bi_gov b) (bi_member b) (bi_funds b) (oset (bi_treasury b) a s) (bi_outposts b))
  | Created a _ _ (InitOutposts en) =>
      s <- outposts_instantiate en ;;
      Ok (mk_births (bi_enterprise b) (bi_ctl b) (bi_gov b) (bi_member b) (bi_funds b) (bi_treasury b) (oset (bi_outposts b) a s))
  | Sent (WasmExecute a (ToEnterprise m) _) =>
      s <- ok_or (oget (bi_enterprise b) a) ENoSuchContract ;;
      '(s, _) <- enterprise_execute eo s factory m ;;
      Ok (mk_births (oset (bi_enterprise b) a s) (bi_ctl b) (bi_gov b) (bi_member b) (bi_funds b) (bi_treasury b) (bi_outposts b))
  | _ => Ok b
  end.

Definition births_of (eo : en_oracle) (e : env) (factory : addr) (log : list effect) : res births :=
  fold_res (birth eo e factory) no_births log.

(** The addresses of the new DAO (contracts/enterprise-factory/src/contract.rs:276-306). *)
Definition addrs_of (d : made) : addrs :=
  mk_addrs (d_enterprise d) (d_controller d) (d_governance d) (d_membership d) (d_council d) (d_funds d) (d_treasury d) (d_outposts d).

(** The new DAO as a whole, with [x] around it. *)
Definition dao_of {X} (d : made) (b : births) (x : X) : option (world X) :=
  match oget (bi_enterprise b) (d_enterprise d), oget (bi_ctl b) (d_controller d), oget (bi_gov b) (d_governance d),
        oget (bi_member b) (d_membership d), oget (bi_member b) (d_council d), oget (bi_funds b) (d_funds d),
        oget (bi_treasury b) (d_treasury d), oget (bi_outposts b) (d_outposts d) with
  | Some en, Some ctl, Some gov, Some mb, Some co, Some fd, Some tr, Some op =>
      Some (mk_world en ctl gov mb co fd tr op [] false x)
  | _, _, _, _, _, _, _, _ => None
  end.
