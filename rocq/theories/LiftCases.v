(** A case of the histories of single contracts: the calls the contracts receive during [usual]. *)
From Verif Require Import Base OMap Assets PollModel FundsModel MemberModel Msgs ControllerModel TreasuryModel EnterpriseModel OutpostsModel WorldModel WorldSpec
  WorldExamples LiftSpec.

Lemma received_case : new_dao dao_at (dao false) /\
  map ignoring_coins (received (a_governance dao_at) (world_run idle dao_at (dao false) usual)) =
    map (fun m => (3, ToGovernance m))
      [GUpdateVotes 11 60; GUpdateVotes 12 40; GCreatePoll (mk_create 11 0 (1100 * NANOS) (percent 30) (percent 50) None); GCastVote 1 Yes 11 60;
       GCastVote 1 No 12 40; GUpdateVotes 12 45; GEndPoll 1 105 false false] /\
  map ignoring_coins (received (a_membership dao_at) (world_run idle dao_at (dao false) usual)) =
    [(11, ToMembership (DenomMsg (DStake None))); (12, ToMembership (DenomMsg (DStake None))); (12, ToMembership (DenomMsg (DStake None)))].
Proof. split; [exact (start_new _)|]. split; vm_compute; reflexivity. Qed.
