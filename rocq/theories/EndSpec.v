(** What it means that a vote is decided at its end. *)
From Verif Require Import Base OMap Assets PollModel PollSpec FundsModel MemberModel MemberSpec Msgs ControllerModel ControllerSpec TreasuryModel
  EnterpriseModel OutpostsModel WorldModel WorldSpec LiveSpec.

(** In [w], the vote on proposal [id], of type [ty], goes on until [ends]. *)
Definition closing {X} (w : world X) (ty : proposal_type) (id ends : N) : Prop :=
  exists p pl, oget (ct_proposals (w_ctl w)) id = Some p /\ pi_type p = ty /\ oget (g_polls (w_gov w)) id = Some pl /\ p_status pl = InProgress ends.

(** The transactions [ts] are all earlier than [t], or all not earlier. *)
Definition all_before (t : N) (ts : list tx) : Prop := Forall (fun x => e_time (tx_env x) < t) ts.
Definition all_after (t : N) (ts : list tx) : Prop := Forall (fun x => t <= e_time (tx_env x)) ts.

(** The transactions [ts] all come in an earlier second than [t] does. *)
Definition seconds_before (t : N) (ts : list tx) : Prop := Forall (fun x => e_time (tx_env x) / 10 ^ 9 < t / 10 ^ 9) ts.

(** Two polls differ in their status at most. *)
Definition status_only (p p' : poll) : Prop :=
  exists s, p' = mk_poll (p_id p) (p_proposer p) (p_deposit p) s (p_started_at p) (p_ends_at p) (p_quorum p) (p_threshold p) (p_veto_threshold p) (p_results p).

(** All votes on proposal [id]. *)
Definition turnout (g : gov) (id : N) : N := lsum v_amount (recorded_votes g id).

(** The share of the votes can be computed: as a 128-bit number with 18 decimals. *)
Definition share_fits (cast total : N) : Prop := cast < 2 ^ 128 /\ cast * 10 ^ 18 / total < 2 ^ 128.

(** The weight there is now for proposals of type [ty]. *)
Definition weight_now {X} (w : world X) (ty : proposal_type) : N := total_now (match ty with General => w_member w | Council => w_council w end).

(** What the rule says about the votes that are recorded in [g], when [total] could be cast. *)
Definition ruled (g : gov) (id : N) (pl : poll) (total : N) (s : poll_status) : Prop :=
  verdict (p_quorum pl) (p_threshold pl) (match p_veto_threshold pl with Some v => v | None => p_threshold pl end)
    (tally g id Yes) (tally g id No) (tally g id Abstain) (tally g id Veto) total s.
