(** Decisions about the council, and what the DAO is when they have taken effect. *)
From Verif Require Import Base OMap Assets PollModel PollSpec FundsModel MemberModel MemberSpec Msgs ControllerModel ControllerSpec TreasuryModel
  EnterpriseModel OutpostsModel WorldModel WorldSpec PurseSpec OrderSpec SettingSpec EnactSpec.

(** the members a council is to have *)
Definition named (c : option council_spec) : list addr := match c with Some s => cs_members s | None => [] end.

(** Actions about the description, the rules of voting and the council. *)
Definition internal (a : proposal_action) : Prop :=
  house a \/ exists c, a = PUpdateCouncil c /\ N.of_nat (length (named c)) < 2 ^ 128.

(** weights in the council after an action: one for each member named, none for all others *)
Definition in_office (f : addr -> N) (a : proposal_action) : addr -> N :=
  match a with PUpdateCouncil c => fun u => if existsb (N.eqb u) (named c) then 1 else 0 | _ => f end.
Definition seats (n : N) (a : proposal_action) : N := match a with PUpdateCouncil c => N.of_nat (length (named c)) | _ => n end.

(** The council is a list of members kept for this DAO, and nobody but the controller is told of its changes. *)
Definition council_ready {X} (A : addrs) (w : world X) : Prop :=
  exists m, w_council w = MMultisig m /\ m_enterprise m = a_enterprise A /\ forall h, ohas (m_hooks m) h = true -> h = a_controller A.

(** [w'] is [w] when the actions [l] of proposal [id] have taken effect, one after the other, and nothing else has changed. *)
Record carried {X} (A : addrs) (w w' : world X) (id : N) (l : list proposal_action) : Prop := mk_carried {
  ca_metadata : en_metadata (w_enterprise w') = fold_left renamed (renames l) (en_metadata (w_enterprise w));
  ca_config : ct_config (w_ctl w') = fold_left ruled l (ct_config (w_ctl w));
  ca_council : ct_council (w_ctl w') = fold_left seated l (ct_council (w_ctl w));
  ca_seats : forall u, weight_of (w_council w') u = fold_left in_office l (weight_of (w_council w)) u;
  ca_total : total_now (w_council w') = fold_left seats l (total_now (w_council w));
  ca_ready : council_ready A w';
  ca_enterprise : let n := w_enterprise w in w_enterprise w' =
    mk_enterprise (en_creation n) (en_factory n) (en_versioning n) (en_metadata (w_enterprise w')) (en_version n) (en_type n) (en_finalized n) (en_components n);
  ca_controller : let c := w_ctl w in w_ctl w' =
    mk_ctl (ct_enterprise c) (ct_config (w_ctl w')) (ct_council (w_ctl w')) (ct_proposals c) (ct_creation c) (ct_treasuries c) (ct_creating c) (ct_executing c) (ct_voting c);
  ca_others : (w_gov w', w_member w', w_funds w', w_treasury w', w_outposts w') = (w_gov w, w_member w, w_funds w, w_treasury w, w_outposts w);
  ca_outside : (w_upgraded w', w_ext w') = (w_upgraded w, w_ext w);
  ca_log : exists news, w_log w' = news ++ (a_controller A, run_order A id) :: w_log w
}.
