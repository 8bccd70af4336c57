(** What the front contract is for, independently of how the model computes. *)
From Verif Require Import Base FrontModel.

(** Which question a query is, about which contract, with which parameters. *)
Definition question (q : front_query) : N :=
  match q with
  | QTreasuryAddress _ => 0
  | QDaoInfo _ => 1
  | QComponentContracts _ => 2
  | QMemberInfo _ _ => 3
  | QListMultisigMembers _ _ => 4
  | QAssetWhitelist _ _ => 5
  | QNftWhitelist _ _ => 6
  | QProposal _ _ => 7
  | QProposals _ _ => 8
  | QProposalStatus _ _ => 9
  | QMemberVote _ _ => 10
  | QProposalVotes _ _ => 11
  | QUserStake _ _ => 12
  | QTotalStakedAmount _ => 13
  | QStakedNfts _ _ => 14
  | QClaims _ _ => 15
  | QReleasableClaims _ _ => 16
  | QCrossChainTreasuries _ _ => 17
  | QHasIncompleteV2Migration _ => 18
  | QHasUnmovedStakesOrClaims _ => 19
  | QV2MigrationStage _ => 20
  | QCreateProposalAdapted _ _ => 21
  | QCreateProposalWithDenomDepositAdapted _ _ => 22
  | QCreateProposalWithTokenDepositAdapted _ _ => 23
  | QCreateProposalWithNftDepositAdapted _ _ => 24
  | QCreateCouncilProposalAdapted _ _ => 25
  | QCastVoteAdapted _ _ => 26
  | QCastCouncilVoteAdapted _ _ => 27
  | QExecuteProposalAdapted _ _ => 28
  | QStakeAdapted _ _ => 29
  | QUnstakeAdapted _ _ => 30
  | QClaimAdapted _ => 31
  end.
Definition about (q : front_query) : addr :=
  match q with
  | QTreasuryAddress a => a
  | QDaoInfo a => a
  | QComponentContracts a => a
  | QMemberInfo a _ => a
  | QListMultisigMembers a _ => a
  | QAssetWhitelist a _ => a
  | QNftWhitelist a _ => a
  | QProposal a _ => a
  | QProposals a _ => a
  | QProposalStatus a _ => a
  | QMemberVote a _ => a
  | QProposalVotes a _ => a
  | QUserStake a _ => a
  | QTotalStakedAmount a => a
  | QStakedNfts a _ => a
  | QClaims a _ => a
  | QReleasableClaims a _ => a
  | QCrossChainTreasuries a _ => a
  | QHasIncompleteV2Migration a => a
  | QHasUnmovedStakesOrClaims a => a
  | QV2MigrationStage a => a
  | QCreateProposalAdapted a _ => a
  | QCreateProposalWithDenomDepositAdapted a _ => a
  | QCreateProposalWithTokenDepositAdapted a _ => a
  | QCreateProposalWithNftDepositAdapted a _ => a
  | QCreateCouncilProposalAdapted a _ => a
  | QCastVoteAdapted a _ => a
  | QCastCouncilVoteAdapted a _ => a
  | QExecuteProposalAdapted a _ => a
  | QStakeAdapted a _ => a
  | QUnstakeAdapted a _ => a
  | QClaimAdapted a => a
  end.
Definition details (q : front_query) : option N :=
  match q with
  | QTreasuryAddress _ | QDaoInfo _ | QComponentContracts _ | QTotalStakedAmount _ | QHasIncompleteV2Migration _ | QHasUnmovedStakesOrClaims _ | QV2MigrationStage _ | QClaimAdapted _ => None
  | QMemberInfo _ p => Some p
  | QListMultisigMembers _ p => Some p
  | QAssetWhitelist _ p => Some p
  | QNftWhitelist _ p => Some p
  | QProposal _ p => Some p
  | QProposals _ p => Some p
  | QProposalStatus _ p => Some p
  | QMemberVote _ p => Some p
  | QProposalVotes _ p => Some p
  | QUserStake _ p => Some p
  | QStakedNfts _ p => Some p
  | QClaims _ p => Some p
  | QReleasableClaims _ p => Some p
  | QCrossChainTreasuries _ p => Some p
  | QCreateProposalAdapted _ p => Some p
  | QCreateProposalWithDenomDepositAdapted _ p => Some p
  | QCreateProposalWithTokenDepositAdapted _ p => Some p
  | QCreateProposalWithNftDepositAdapted _ p => Some p
  | QCreateCouncilProposalAdapted _ p => Some p
  | QCastVoteAdapted _ p => Some p
  | QCastCouncilVoteAdapted _ p => Some p
  | QExecuteProposalAdapted _ p => Some p
  | QStakeAdapted _ p => Some p
  | QUnstakeAdapted _ p => Some p
  end.

(** The same question with the same parameters, about [d]. *)
Definition same_about (q q' : front_query) (d : addr) : Prop := question q' = question q /\ details q' = details q /\ about q' = d.

(** Two generations of DAOs. *)
Inductive generation := Old | New.

(** What the address [a] that was asked about leads to: a DAO of the old code itself; or the enterprise contract of the
    controller that is the admin of the treasury [a]; or an enterprise contract itself. *)
Inductive leads (W : answers) (a : addr) : generation -> addr -> Prop :=
| L_old : an_old_info W a = true -> leads W a Old a
| L_treasury admin en : an_old_info W a = false -> an_admin W a = Ok admin -> an_config W admin = Ok en -> leads W a New en
| L_enterprise : an_old_info W a = false -> (forall admin, an_admin W a = Ok admin -> forall en, an_config W admin <> Ok en) ->
    an_components W a = true -> leads W a New a.

(** The facade for a generation. *)
Definition facade_for (f : front) (g : generation) : addr := match g with Old => ff_v1 f | New => ff_v2 f end.

(** The migrations that the chain accepts: those with proper addresses. *)
Definition proper (a : option addr) : Prop := a <> Some 0.
Definition given (g : generation) (o : front_op) : option addr :=
  match o with FMigrate v1 v2 => match g with Old => v1 | New => v2 end | _ => None end.

(** The last address that a proper migration gave for [g] (the last operation comes last); [a0] if none did. *)
Inductive last_given (g : generation) (a0 : addr) : list front_op -> addr -> Prop :=
| LG_none : last_given g a0 [] a0
| LG_new l o a : proper (given Old o) -> proper (given New o) -> given g o = Some a -> last_given g a0 (l ++ [o]) a
| LG_old l o a : last_given g a0 l a -> given g o = None \/ ~ (proper (given Old o) /\ proper (given New o)) -> last_given g a0 (l ++ [o]) a.
