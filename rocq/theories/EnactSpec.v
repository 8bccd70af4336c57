(** Decisions about the rules and about the description of a DAO, and what the DAO is when they have taken effect. *)
From Verif Require Import Base OMap Assets PollModel PollSpec FundsModel MemberModel MemberSpec Msgs ControllerModel ControllerSpec TreasuryModel
  EnterpriseModel OutpostsModel WorldModel WorldSpec PurseSpec OrderSpec SettingSpec.

(** Actions that concern nothing but the description and the rules of voting (the unstaking period is no such rule). *)
Definition house (a : proposal_action) : Prop :=
  match a with PUpdateMetadata _ => True | PUpdateGovConfig u => gu_unlocking_period u = NoChange | _ => False end.

Definition renames (l : list proposal_action) : list metadata_update :=
  flat_map (fun a => match a with PUpdateMetadata u => [u] | _ => [] end) l.
Definition renamed (d : metadata) (u : metadata_update) : metadata := described d (ToEnterprise (EnUpdateMetadata u)).

(** The DAO [w] when the actions [l] of proposal [id] have taken effect, one after the other: description and rules are changed as they say,
    the messages are on record; all else is as it was. *)
Definition enacted {X} (A : addrs) (w : world X) (id : N) (l : list proposal_action) : world X :=
  let n := w_enterprise w in let c := w_ctl w in
  mk_world
    (mk_enterprise (en_creation n) (en_factory n) (en_versioning n) (fold_left renamed (renames l) (en_metadata n)) (en_version n) (en_type n)
       (en_finalized n) (en_components n))
    (mk_ctl (ct_enterprise c) (fold_left ruled l (ct_config c)) (ct_council c) (ct_proposals c) (ct_creation c) (ct_treasuries c) (ct_creating c)
       (ct_executing c) (ct_voting c))
    (w_gov w) (w_member w) (w_council w) (w_funds w) (w_treasury w) (w_outposts w)
    (rev (map (fun u => (a_controller A, enterprise_call A (EnUpdateMetadata u))) (renames l)) ++ (a_controller A, run_order A id) :: w_log w)
    (w_upgraded w) (w_ext w).

(** The rules at the start are in order for a DAO of this type. *)
Definition rules_fit {X} (w : world X) : Prop := sane_config (en_type (w_enterprise w)) (ct_config (w_ctl w)).
