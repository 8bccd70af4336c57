(** Proposals on record that are in order. *)
From Verif Require Import Base OMap Assets PollModel PollSpec FundsModel MemberModel MemberSpec Msgs ControllerModel ControllerSpec TreasuryModel TreasurySpec
  EnterpriseModel OutpostsModel WorldModel WorldSpec.

(** At most ten actions, each of them in order for a DAO of type [t], with the version and the rules of some one moment. *)
Definition well_made (t : dao_type) (p : proposal_info) : Prop :=
  (length (pi_actions p) <= 10)%nat /\ exists version rules, Forall (well_formed t version rules) (pi_actions p).

(** Changes of the lists of the treasury of this chain, without a cw1155 asset to add; nothing is said about addresses. *)
Definition list_change (a : proposal_action) : Prop :=
  match a with
  | PUpdateAssets None add _ => forall c i, ~ In (Cw1155 c i) add
  | PUpdateNfts None _ _ => True
  | _ => False
  end.
