(** Who can vote when, and what a vote changes. *)
From Verif Require Import Base OMap Assets PollModel FundsModel MemberModel MemberSpec Msgs ControllerModel ControllerSpec TreasuryModel EnterpriseModel
  OutpostsModel WorldModel WorldSpec.

(** The message by which one votes on a proposal of type [t]. *)
Definition voting (A : addrs) (t : proposal_type) (id : N) (o : outcome) : cosmos_msg :=
  WasmExecute (a_controller A) (ToController (match t with General => CCastVote id o | Council => CCastCouncilVote id o end)) [].

(** The weight with which [u] votes on such proposals. *)
Definition vote_weight {X} (w : world X) (t : proposal_type) (u : addr) : N :=
  weight_of (match t with General => w_member w | Council => w_council w end) u.

(** [u] may vote on proposal [id] at [now]: not restricted, with weight, and the poll is open. *)
Definition may_vote {X} (Out : outside X) (A : addrs) (w : world X) (t : proposal_type) (now : N) (u : addr) (id : N) : Prop :=
  u <> 0 /\ restricted_by Out A w (a_enterprise A) u = Ok false /\ vote_weight w t u <> 0 /\ open_poll w t id now /\
  (t = Council -> ct_council (w_ctl w) <> None).

(** Moments of the near future exist (as 64-bit nanoseconds). *)
Definition clock_has_room {X} (w : world X) (e : env) : Prop :=
  e_time e + gc_vote_duration (ct_config (w_ctl w)) / 10 * 10 ^ 9 < 2 ^ 64.

(** Two polls differ in the counted votes only. *)
Definition counts_only (p p' : poll) : Prop :=
  exists r, p' = mk_poll (p_id p) (p_proposer p) (p_deposit p) (p_status p) (p_started_at p) (p_ends_at p) (p_quorum p) (p_threshold p) (p_veto_threshold p) r.

(** Two records of a proposal differ at most in the time before which it cannot be executed early, which is not after [ends]. *)
Definition delayed_only (ends : N) (p p' : proposal_info) : Prop :=
  p' = p \/ exists t, t <= ends /\ p' = mk_info (pi_type p) (pi_executed_at p) (Some t) (pi_deposit p) (pi_actions p).

(** From [w] to [w'] the vote [o] of [u] on proposal [id] has been counted with weight [x], and nothing else has happened. *)
Record counted {X} (A : addrs) (t : proposal_type) (w w' : world X) (u : addr) (id : N) (o : outcome) (x : N) : Prop := mk_counted {
  cd_vote : get_vote (w_gov w') u id = Some (mk_vote id u (outcome_u8 o) x);
  cd_votes : forall voter i, voter <> u \/ i <> id -> get_vote (w_gov w') voter i = get_vote (w_gov w) voter i;
  cd_poll : exists pl pl', oget (g_polls (w_gov w)) id = Some pl /\ oget (g_polls (w_gov w')) id = Some pl' /\ counts_only pl pl' /\
    exists p p', oget (ct_proposals (w_ctl w)) id = Some p /\ oget (ct_proposals (w_ctl w')) id = Some p' /\ delayed_only (p_ends_at pl) p p' /\
      (t = Council \/ gc_allow_early (ct_config (w_ctl w)) = false \/ en_type (w_enterprise w) = DaoMultisig -> p' = p);
  cd_polls : forall i, i <> id -> oget (g_polls (w_gov w')) i = oget (g_polls (w_gov w)) i;
  cd_gov : g_admin (w_gov w') = g_admin (w_gov w) /\ g_count (w_gov w') = g_count (w_gov w);
  cd_proposals : forall i, i <> id -> oget (ct_proposals (w_ctl w')) i = oget (ct_proposals (w_ctl w)) i;
  cd_ctl : ct_enterprise (w_ctl w') = ct_enterprise (w_ctl w) /\ ct_config (w_ctl w') = ct_config (w_ctl w) /\ ct_council (w_ctl w') = ct_council (w_ctl w) /\
    ct_creation (w_ctl w') = ct_creation (w_ctl w) /\ ct_treasuries (w_ctl w') = ct_treasuries (w_ctl w) /\ ct_creating (w_ctl w') = ct_creating (w_ctl w) /\
    ct_executing (w_ctl w') = ct_executing (w_ctl w) /\ ct_voting (w_ctl w') = (match t with General => None | Council => ct_voting (w_ctl w) end);
  cd_rest : w_enterprise w' = w_enterprise w /\ w_member w' = w_member w /\ w_council w' = w_council w /\ w_funds w' = w_funds w /\
    w_treasury w' = w_treasury w /\ w_outposts w' = w_outposts w /\ w_upgraded w' = w_upgraded w /\ w_ext w' = w_ext w;
  cd_log : w_log w' = [(a_controller A, WasmExecute (a_governance A) (ToGovernance (GCastVote id o u x)) []); (u, voting A t id o)] ++ w_log w
}.
