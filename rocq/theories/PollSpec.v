(** What the governance properties mean, independently of how the model computes. *)
From Verif Require Import Base OMap PollModel.

(** All votes recorded on a poll, as the voter-list query reports them. *)
Definition recorded_votes (g : gov) (id : N) : list vote := query_poll_voters g id None None None.

(** Sum of the amounts of the recorded votes for an outcome, in unbounded arithmetic. *)
Definition tally (g : gov) (id : N) (o : outcome) : N :=
  lsum v_amount (filter (fun v => v_outcome v =? outcome_u8 o) (recorded_votes g id)).

Definition all_outcomes : list outcome := [Yes; No; Abstain; Veto].

(** [a] out of [b] reaches the fraction [pct] (a decimal with 18 digits; a share of nothing is 0). *)
Definition reaches (a b pct : N) : Prop :=
  (b <> 0 /\ pct * b <= a * DEC) \/ (b = 0 /\ pct = 0).

(** The voting rule. [y n a v]: votes for yes, no, abstain, veto; [avail]: votes available. *)
Section Rule.
  Variables (quorum threshold veto_threshold : N) (y n a v avail : N).
  Let cast := y + n + a + v.
  Let decided := y + n + v.

  Inductive verdict : poll_status -> Prop :=
  | V_quorum : ~ reaches cast avail quorum -> verdict (Rejected QuorumNotReached)
  | V_veto : reaches cast avail quorum -> reaches v decided veto_threshold -> verdict (Rejected IsVetoOutcome)
  | V_yes : reaches cast avail quorum -> ~ reaches v decided veto_threshold ->
            reaches y decided threshold -> (reaches n decided threshold -> n < y) ->
            verdict (Passed 0 y)
  | V_no : reaches cast avail quorum -> ~ reaches v decided veto_threshold ->
           reaches n decided threshold -> (reaches y decided threshold -> y < n) ->
           verdict (Rejected IsRejectingOutcome)
  | V_draw : reaches cast avail quorum -> ~ reaches v decided veto_threshold ->
             reaches y decided threshold -> reaches n decided threshold -> y = n ->
             verdict (Rejected (OutcomeDraw 0 1 n))
  | V_threshold : reaches cast avail quorum -> ~ reaches v decided veto_threshold ->
                  ~ reaches y decided threshold -> ~ reaches n decided threshold ->
                  verdict (Rejected ThresholdNotReached).
End Rule.

(** A poll accepts votes at time [now]. *)
Definition open_at (p : poll) (now : N) : Prop :=
  (exists t, p_status p = InProgress t) /\ p_started_at p <= now < p_ends_at p.

Definition ended (p : poll) : Prop := ~ exists t, p_status p = InProgress t.

(** Everything about a poll but its status and results. *)
Definition terms (p : poll) :=
  (p_id p, p_proposer p, p_deposit p, p_started_at p, p_ends_at p, p_quorum p, p_threshold p, p_veto_threshold p).

(** Amounts in messages are [Uint128]: below 2^128. *)
Definition typed_msg (m : gov_msg) : Prop :=
  match m with
  | GCastVote _ _ _ amount => amount < M128
  | GUpdateVotes _ amount => amount < M128
  | GEndPoll _ avail _ _ => avail < M128
  | GCreatePoll c => cp_deposit c < M128
  end.

(** Histories of the governance contract: any calls, fewer than 2^64 of them (the poll counter is a u64). *)
Definition history (cs : list gov_call) : Prop :=
  Forall (fun c => typed_msg (gc_msg c)) cs /\ N.of_nat (length cs) < M64.

(** Block time never decreases and has not passed [now]. *)
Fixpoint times_upto (cs : list gov_call) (now : N) : Prop :=
  match cs with
  | [] => True
  | c :: t => times_upto t now /\ e_time (gc_env c) <= now /\
              Forall (fun c' => e_time (gc_env c) <= e_time (gc_env c')) t
  end.

(** From [g] to [g'] no poll appears or disappears and none changes but for its vote counts. *)
Definition only_counts_change (g g' : gov) : Prop :=
  (forall id p, query_poll g id = Ok p ->
     exists p', query_poll g' id = Ok p' /\ terms p' = terms p /\ p_status p' = p_status p) /\
  (forall id p', query_poll g' id = Ok p' -> exists p, query_poll g id = Ok p).

(** Strictly increasing numbers. *)
Fixpoint ascending (l : list N) : Prop :=
  match l with
  | a :: ((b :: _) as t) => a < b /\ ascending t
  | _ => True
  end.

(** Lower bound exclusive, upper bound inclusive. *)
Definition in_range (lo hi : option N) (k : N) : Prop :=
  match lo with Some s => s < k | None => True end /\ match hi with Some s => k <= s | None => True end.
