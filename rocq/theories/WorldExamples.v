(** A concrete DAO: enterprise 1, governance 2, controller 3, treasury 4, outposts 5, funds distributor 6,
    membership 7, council 8. Members stake coins of denom 70. Council members are 21, 22, 23. *)
From Verif Require Import Base OMap Assets PollModel PollSpec FundsModel MemberModel MemberSpec Msgs ControllerModel ControllerSpec
  TreasuryModel EnterpriseModel OutpostsModel WorldModel WorldSpec TreasuryExamples.

Definition dao_at : addrs := mk_addrs 1 3 2 7 8 6 4 5.
Definition clock (s : N) : env := mk_env (s * NANOS) s.
Definition percent (n : N) : N := n * 10 ^ 16.

(** Everything outside accepts every message and does nothing; user 666 has not signed. *)
Definition idle : outside unit :=
  mk_outside (fun _ _ _ _ _ _ => Ok (tt, [], None)) (fun _ _ _ _ _ => Ok (tt, [])) (fun _ _ _ _ => Ok (tt, None)) (fun _ _ _ _ => Ok tt)
    (fun _ _ u => Ok (negb (u =? 666))) (fun _ _ _ => Err EStd) (fun _ _ _ => Ok None) (fun _ _ => []) (fun _ _ _ _ => Err EStd)
    (fun _ _ _ => Err EStd) (fun _ _ => Ok 9) (fun _ _ _ => Err EStd) (fun _ _ => None).

Definition w_config (early : bool) : gov_config := mk_gov_config (percent 30) (percent 50) None 1000 (Some 20) early.
Definition w_councillors : council_spec := mk_council_spec [21; 22; 23] (percent 50) (percent 50) (Some [TUpdateMetadata; TUpgradeDao]).

Definition got {V} (r : res V) (d : V) : V := match r with Ok v => v | Err _ => d end.
Definition no_members : members := mk_members 0 oempty snap_empty snap_empty oempty.
Definition dao (early : bool) : world unit :=
  mk_world
    (mk_enterprise 77 9 30 (mk_metadata 100 None None None None None None) (version 1 0 0) DaoDenom true (Some (wiring_of dao_at None)))
    (got (ctl_instantiate (clock 50) 1 DaoDenom (w_config early) (Some w_councillors) [] None) (mk_ctl 0 (w_config false) None oempty 0 None None None None))
    (gov_init 3)
    (got (member_instantiate (clock 50) (IDenom 1 70 (DTime 2000) [3])) (MMultisig no_members))
    (got (member_instantiate (clock 50) (IMultisig 1 (Some [(21, 1); (22, 1); (23, 1)]) [] [] [3])) (MMultisig no_members))
    (got (funds_instantiate 3 1 None []) (mk_funds 0 0 0 0 oempty oempty (mk_rewards oempty oempty) (mk_rewards oempty oempty)))
    (got (treasury_instantiate 3 None None) tr_new)
    (mk_outposts 1 oempty oempty oempty 0) [] false tt.

(** Transactions: at second [t], signed by [s]. *)
Definition to_ctl (t : N) (s : addr) (coins : list coin) (m : controller_msg) : tx := mk_tx 60 (clock t) s (WasmExecute 3 (ToController m) coins).
Definition stake (t : N) (s amount : N) : tx := mk_tx 60 (clock t) s (WasmExecute 7 (ToMembership (DenomMsg (DStake None))) [(70, amount)]).
Definition unstake (t : N) (s amount : N) : tx := mk_tx 60 (clock t) s (WasmExecute 7 (ToMembership (DenomMsg (DCommon (SUnstake amount)))) []).
Definition propose (t : N) (s : addr) (l : list proposal_action) : tx := to_ctl t s [(70, 25)] (CCreateProposal l None).
Definition vote_yes (t : N) (s : addr) (id : N) : tx := to_ctl t s [] (CCastVote id Yes).
Definition execute (t : N) (s : addr) (id : N) : tx := to_ctl t s [] (CExecuteProposal id).

Definition after (early : bool) (ts : list tx) : world unit := world_run idle dao_at (dao early) ts.
Definition stakes : list tx := [stake 60 11 60; stake 61 12 40].

(** 11 proposes and votes yes with 60 of 100; after the end 12 has it executed. *)
Definition usual : list tx :=
  stakes ++ [propose 100 11 [PUpdateMinimumWeight 5]; vote_yes 110 11 1; to_ctl 111 12 [] (CCastVote 1 No); stake 120 12 5; execute 1100 12 1].

Lemma start_new early : new_dao dao_at (dao early).
Proof.
  split.
  - unfold dao_addrs, dao_at. cbn. repeat constructor; cbn; intuition discriminate.
  - reflexivity.
  - exists None. reflexivity.
  - exists (clock 50), DaoDenom, (w_config early), (Some w_councillors), None. destruct early; vm_compute; reflexivity.
  - reflexivity.
  - exists (clock 50), (IDenom 1 70 (DTime 2000) [3]). vm_compute. reflexivity.
  - vm_compute. reflexivity.
  - vm_compute. reflexivity.
  - exists (clock 50), (IMultisig 1 (Some [(21, 1); (22, 1); (23, 1)]) [] [] [3]). vm_compute. reflexivity.
  - reflexivity.
Qed.

Definition info_of (w : world unit) (id : N) := oget (ct_proposals (w_ctl w)) id.
Definition poll_of (w : world unit) (id : N) := oget (g_polls (w_gov w)) id.

(** Proposal 2 passes early and orders the actions of proposal 1, which nobody has voted on. *)
Definition hijack : list tx :=
  stakes ++ [propose 100 12 [PUpdateMinimumWeight 9]; propose 101 11 [PExecuteMsgs [Some (run_order dao_at 1)]]; vote_yes 110 11 2; execute 300 12 2].
(** Proposal 2 passes early and gives the deposit of proposal 1 away. *)
Definition raid : list tx :=
  stakes ++ [propose 100 12 [PUpdateMinimumWeight 9]; propose 101 11 [PExecuteMsgs [Some (BankSend 99 [(70, 25)])]]; vote_yes 110 11 2; execute 300 12 2].
(** Proposal 2 passes early and changes the votes on proposal 1. *)
Definition stuffing : list tx :=
  stakes ++ [propose 100 12 [PUpdateMinimumWeight 9]; to_ctl 101 12 [] (CCastVote 1 Yes);
             propose 102 11 [PExecuteMsgs [Some (WasmExecute 2 (ToGovernance (GUpdateVotes 12 5000)) [])]]; vote_yes 110 11 2; execute 300 12 2].
(** The second action of proposal 1 fails. *)
Definition failing : list tx :=
  stakes ++ [propose 100 11 [PUpdateMinimumWeight 5; PExecuteMsgs [Some (WasmExecute 4 (ToOther 0) [])]]; vote_yes 110 11 1].
(** 12 votes with 10 of 70, then stakes 90 more; nobody else votes. *)
Definition shift : list tx := [stake 60 11 60; stake 61 12 10; propose 100 11 [PUpdateMinimumWeight 5]; vote_yes 110 12 1; stake 120 12 90].
(** Council member 21, who also stakes, is the only one to vote on a council proposal. *)
Definition grab : list tx :=
  stakes ++ [stake 62 21 5; to_ctl 100 21 [] (CCreateCouncilProposal [PUpdateMetadata (mk_metadata_update (Change 13) NoChange NoChange NoChange NoChange NoChange NoChange)]); to_ctl 110 21 [] (CCastCouncilVote 1 Yes)].
