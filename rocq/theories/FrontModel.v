(** Model of contracts/enterprise-facade: the one address where DAOs of both generations can be asked and addressed. It keeps
    the addresses of the two facades that answer, and passes every query on to one of them.

    Simplified: the parameters of a query are opaque (they are passed on as they came); answers are decoded and encoded
    again on the way, which is left out (an answer that cannot be decoded counts as an error of the facade asked);
    the contract version (cw2) is left out. Which facade it is, is decided by queries to other contracts: arguments here. *)
From Verif Require Import Base.

(** contracts/enterprise-facade/src/state.rs:4-5 *)
Record front := mk_front { ff_v1 : addr; ff_v2 : addr }.

(** contract.rs:38-53 [instantiate] *)
Definition front_instantiate (v1 v2 : addr) : res front :=
  v1 <- addr_validate v1 ;; v2 <- addr_validate v2 ;; Ok (mk_front v1 v2).

(** contract.rs:55-63 [execute] and 65-68 [reply]: whatever comes is accepted and does nothing *)
Definition front_execute (f : front) : res front := Ok f.
Definition front_reply (f : front) : res front := Ok f.

(** contract.rs:453-472 [migrate] *)
Definition front_migrate (f : front) (v1 v2 : option addr) : res front :=
  f <- match v1 with Some a => a <- addr_validate a ;; Ok (mk_front a (ff_v2 f)) | None => Ok f end ;;
  match v2 with Some a => a <- addr_validate a ;; Ok (mk_front (ff_v1 f) a) | None => Ok f end.

(** Everything that can be done with the contract, by anybody and by the chain *)
Inductive front_op := FExecute (sender : addr) | FReply (id : N) | FMigrate (v1 v2 : option addr).
Definition front_exec (f : front) (o : front_op) : res front :=
  match o with FExecute _ => front_execute f | FReply _ => front_reply f | FMigrate v1 v2 => front_migrate f v1 v2 end.
(** The chain undoes what failed. *)
Definition front_step (f : front) (o : front_op) : front := match front_exec f o with Ok f' => f' | Err _ => f end.
Definition front_run (f : front) (l : list front_op) : front := fold_left front_step l f.

(** What other contracts answer to the queries of facade.rs: whether [DaoInfo] answers in the old format, the admin in
    [Config] of a treasury, the enterprise contract in [Config] of a controller, whether [ComponentContracts] answers *)
Record answers := mk_answers {
  an_old_info : addr -> bool;
  an_admin : addr -> res addr;
  an_config : addr -> res addr;
  an_components : addr -> bool
}.

(** contracts/enterprise-facade/src/facade.rs:31-35 [FacadeTarget]: the address of the facade, the address of the DAO *)
Definition front_target := (addr * addr)%type.

(** facade.rs:68-91 *)
Definition assume_treasury (f : front) (W : answers) (a : addr) : res front_target :=
  admin <- an_admin W a ;; en <- an_config W admin ;; Ok (ff_v2 f, en).
(** facade.rs:93-111 *)
Definition assume_enterprise (f : front) (W : answers) (a : addr) : res front_target :=
  if an_components W a then Ok (ff_v2 f, a) else Err EStd.
(** facade.rs:41-66 [get_facade] *)
Definition front_facade (f : front) (W : answers) (a : addr) : res front_target :=
  if an_old_info W a then Ok (ff_v1 f, a)
  else match assume_treasury f W a with Ok t => Ok t | Err _ => assume_enterprise f W a end.

(** packages/enterprise-facade-api/src/msg.rs:29-173 [QueryMsg] *)
Inductive front_query :=
| QTreasuryAddress (contract : addr)
| QDaoInfo (contract : addr)
| QComponentContracts (contract : addr)
| QMemberInfo (contract : addr) (params : N)
| QListMultisigMembers (contract : addr) (params : N)
| QAssetWhitelist (contract : addr) (params : N)
| QNftWhitelist (contract : addr) (params : N)
| QProposal (contract : addr) (params : N)
| QProposals (contract : addr) (params : N)
| QProposalStatus (contract : addr) (params : N)
| QMemberVote (contract : addr) (params : N)
| QProposalVotes (contract : addr) (params : N)
| QUserStake (contract : addr) (params : N)
| QTotalStakedAmount (contract : addr)
| QStakedNfts (contract : addr) (params : N)
| QClaims (contract : addr) (params : N)
| QReleasableClaims (contract : addr) (params : N)
| QCrossChainTreasuries (contract : addr) (params : N)
| QHasIncompleteV2Migration (contract : addr)
| QHasUnmovedStakesOrClaims (contract : addr)
| QV2MigrationStage (contract : addr)
| QCreateProposalAdapted (contract : addr) (params : N)
| QCreateProposalWithDenomDepositAdapted (contract : addr) (params : N)
| QCreateProposalWithTokenDepositAdapted (contract : addr) (params : N)
| QCreateProposalWithNftDepositAdapted (contract : addr) (params : N)
| QCreateCouncilProposalAdapted (contract : addr) (params : N)
| QCastVoteAdapted (contract : addr) (params : N)
| QCastCouncilVoteAdapted (contract : addr) (params : N)
| QExecuteProposalAdapted (contract : addr) (params : N)
| QStakeAdapted (contract : addr) (params : N)
| QUnstakeAdapted (contract : addr) (params : N)
| QClaimAdapted (contract : addr).

(** contract.rs:70-451 [query]; [ask] is what the contract at an address answers to a query *)
Definition front_answer {R : Type} (ask : addr -> front_query -> res R) (f : front) (W : answers) (q : front_query) : res R :=
  match q with
  (* 73 *) | QTreasuryAddress contract => '(to, dao) <- front_facade f W contract ;; ask to (QTreasuryAddress dao)
  (* 84 *) | QDaoInfo contract => '(to, dao) <- front_facade f W contract ;; ask to (QDaoInfo dao)
  (* 95 *) | QComponentContracts contract => '(to, dao) <- front_facade f W contract ;; ask to (QComponentContracts dao)
  (* 106 *) | QMemberInfo contract params => '(to, dao) <- front_facade f W contract ;; ask to (QMemberInfo dao params)
  (* 118 *) | QListMultisigMembers contract params => '(to, dao) <- front_facade f W contract ;; ask to (QListMultisigMembers dao params)
  (* 130 *) | QAssetWhitelist contract params => '(to, dao) <- front_facade f W contract ;; ask to (QAssetWhitelist dao params)
  (* 142 *) | QNftWhitelist contract params => '(to, dao) <- front_facade f W contract ;; ask to (QNftWhitelist dao params)
  (* 154 *) | QProposal contract params => '(to, dao) <- front_facade f W contract ;; ask to (QProposal dao params)
  (* 166 *) | QProposals contract params => '(to, dao) <- front_facade f W contract ;; ask to (QProposals dao params)
  (* 178 *) | QProposalStatus contract params => '(to, dao) <- front_facade f W contract ;; ask to (QProposalStatus dao params)
  (* 190 *) | QMemberVote contract params => '(to, dao) <- front_facade f W contract ;; ask to (QMemberVote dao params)
  (* 202 *) | QProposalVotes contract params => '(to, dao) <- front_facade f W contract ;; ask to (QProposalVotes dao params)
  (* 214 *) | QUserStake contract params => '(to, dao) <- front_facade f W contract ;; ask to (QUserStake dao params)
  (* 226 *) | QTotalStakedAmount contract => '(to, dao) <- front_facade f W contract ;; ask to (QTotalStakedAmount dao)
  (* 237 *) | QStakedNfts contract params => '(to, dao) <- front_facade f W contract ;; ask to (QStakedNfts dao params)
  (* 249 *) | QClaims contract params => '(to, dao) <- front_facade f W contract ;; ask to (QClaims dao params)
  (* 261 *) | QReleasableClaims contract params => '(to, dao) <- front_facade f W contract ;; ask to (QReleasableClaims dao params)
  (* 273 *) | QCrossChainTreasuries contract params => '(to, dao) <- front_facade f W contract ;; ask to (QCrossChainTreasuries dao params)
  (* 285 *) | QHasIncompleteV2Migration contract => '(to, dao) <- front_facade f W contract ;; ask to (QHasIncompleteV2Migration dao)
  (* 296 *) | QHasUnmovedStakesOrClaims contract => '(to, dao) <- front_facade f W contract ;; ask to (QHasUnmovedStakesOrClaims dao)
  (* 307 *) | QV2MigrationStage contract => '(to, dao) <- front_facade f W contract ;; ask to (QV2MigrationStage dao)
  (* 318 *) | QCreateProposalAdapted contract params => '(to, dao) <- front_facade f W contract ;; ask to (QCreateProposalAdapted dao params)
  (* 330 *) | QCreateProposalWithDenomDepositAdapted contract params => '(to, dao) <- front_facade f W contract ;; ask to (QCreateProposalWithDenomDepositAdapted dao params)
  (* 342 *) | QCreateProposalWithTokenDepositAdapted contract params => '(to, dao) <- front_facade f W contract ;; ask to (QCreateProposalWithTokenDepositAdapted dao params)
  (* 354 *) | QCreateProposalWithNftDepositAdapted contract params => '(to, dao) <- front_facade f W contract ;; ask to (QCreateProposalWithNftDepositAdapted dao params)
  (* 366 *) | QCreateCouncilProposalAdapted contract params => '(to, dao) <- front_facade f W contract ;; ask to (QCreateCouncilProposalAdapted dao params)
  (* 378 *) | QCastVoteAdapted contract params => '(to, dao) <- front_facade f W contract ;; ask to (QCastVoteAdapted dao params)
  (* 390 *) | QCastCouncilVoteAdapted contract params => '(to, dao) <- front_facade f W contract ;; ask to (QCastCouncilVoteAdapted dao params)
  (* 402 *) | QExecuteProposalAdapted contract params => '(to, dao) <- front_facade f W contract ;; ask to (QExecuteProposalAdapted dao params)
  (* 414 *) | QStakeAdapted contract params => '(to, dao) <- front_facade f W contract ;; ask to (QStakeAdapted dao params)
  (* 426 *) | QUnstakeAdapted contract params => '(to, dao) <- front_facade f W contract ;; ask to (QUnstakeAdapted dao params)
  (* 438 *) | QClaimAdapted contract => '(to, dao) <- front_facade f W contract ;; ask to (QClaimAdapted dao)
  end.
