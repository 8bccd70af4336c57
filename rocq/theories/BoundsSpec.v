(** What lies beyond the council, in the words of the whole DAO. *)
From Verif Require Import Base OMap Assets FundsModel MemberModel MemberSpec Msgs ControllerModel TreasuryModel EnterpriseModel OutpostsModel
  WorldModel WorldSpec PurseSpec RuleSpec.

(** The actions that a council can be allowed to propose. *)
Definition open_to_council (a : proposal_action) : Prop :=
  match a with
  | PUpdateMetadata _ | PUpdateAssets _ _ _ | PUpdateNfts _ _ _ | PUpgradeDao _ _ | PDeployTreasury _ => True
  | _ => False
  end.

(** The settings that only the members as a whole can change: where versions are looked up, the text to agree to, the rules of
    voting, who is in the council and what it may do, what rewards take, the unstaking period, who is told of weights, and who are members. *)
Definition for_members (k : setting) : Prop :=
  match k with
  | OfRegistry | OfAttestation | OfRules | OfCouncil | OfMinimum | OfPeriod | OfHooks | OfMembers => True
  | OfMetadata | OfVersion | OfAssets | OfNfts => False
  end.

(** Between [w] and [w'] no proposal was run but those of the council. *)
Definition council_rules {X} (A : addrs) (w w' : world X) : Prop :=
  forall id p, ran_since A w w' id -> oget (ct_proposals (w_ctl w')) id = Some p -> pi_type p = Council.

(** Orders to a treasury that only list assets or collections. *)
Definition lists_only (tm : treasury_msg) : Prop :=
  match tm with TrUpdateAssets _ _ | TrUpdateNfts _ _ => True | _ => False end.
