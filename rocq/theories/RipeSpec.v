(** What it means that a proposal can be executed at a given moment, before the end of its vote or after. *)
From Verif Require Import Base OMap Assets PollModel PollSpec FundsModel MemberModel MemberSpec Msgs ControllerModel ControllerSpec TreasuryModel
  EnterpriseModel OutpostsModel WorldModel WorldSpec LiveSpec EndSpec.

(** The weight that counts as the total at the time [now]: after the end, the weight there was at the end; before, the weight there is. *)
Definition counting {X} (w : world X) (ty : proposal_type) (pl : poll) (now : N) : N :=
  if p_ends_at pl <=? now then weight_then w ty (p_ends_at pl) else weight_now w ty.

(** The votes on this proposal may be ended early: always those of the council, others if the DAO allows it. *)
Definition may_be_early {X} (w : world X) (p : proposal_info) : Prop :=
  pi_type p = Council \/ gc_allow_early (ct_config (w_ctl w)) = true.

(** Enough people have voted, and one of the sides has reached its share. *)
Definition clear_cut (v : poll_status) : Prop := v <> Rejected QuorumNotReached /\ v <> Rejected ThresholdNotReached.

(** Proposal [id], with record [p] and poll [pl], may be executed by [s] at [e] if the votes are clear; [total] is the weight that counts. *)
Record ripe {X} (Out : outside X) (A : addrs) (w : world X) (e : env) (s : addr) (id : N) (p : proposal_info) (pl : poll) (total : N) : Prop := mk_ripe {
  rp_allowed : restricted_by Out A w (a_enterprise A) s = Ok false;
  rp_proposal : oget (ct_proposals (w_ctl w)) id = Some p;
  rp_once : pi_executed_at p = None;
  rp_earliest : forall t, pi_earliest p = Some t -> t <= e_time e;
  rp_poll : oget (g_polls (w_gov w)) id = Some pl;
  rp_total : total = counting w (pi_type p) pl (e_time e);
  rp_weight : total <> 0;
  rp_early : e_time e < p_ends_at pl -> may_be_early w p
}.

(** The people who have voted for proposal [id] in [w'] had no weight in [w]. *)
Definition newcomers {X} (w w' : world X) (id : N) : Prop :=
  forall u v, get_vote (w_gov w') u id = Some v -> weight_of (w_member w) u = 0.
