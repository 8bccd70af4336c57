(** Model of packages/poll-engine and contracts/enterprise-governance.

    Simplifications: label, description and voting scheme of a poll are dropped (no logic reads them);
    response attributes are dropped, except the poll id that [create_poll] reports. *)
From Verif Require Import Base OMap.

(** packages/poll-engine-api/src/api.rs:61-82 [VoteOutcome] and its u8 encoding *)
Inductive outcome := Yes | No | Abstain | Veto.

Definition outcome_u8 (o : outcome) : N :=
  match o with Yes => 0 | No => 1 | Abstain => 2 | Veto => 3 end.

(** packages/poll-engine-api/src/api.rs:72-82 [From<u8>]: panics on other values *)
Definition outcome_of_u8 (v : N) : res outcome :=
  match v with
  | 0 => Ok Yes
  | 1 => Ok No
  | 2 => Ok Abstain
  | 3 => Ok Veto
  | _ => Err EPanic
  end.

Definition outcome_eqb (a b : outcome) : bool := outcome_u8 a =? outcome_u8 b.

(** packages/poll-engine-api/src/api.rs:181-188 [PollRejectionReason]
    ([QuorumAndThresholdNotReached] is never produced) *)
Inductive rejection :=
| QuorumNotReached
| ThresholdNotReached
| QuorumAndThresholdNotReached
| IsRejectingOutcome
| IsVetoOutcome
| OutcomeDraw (a b : N) (count : N).

(** packages/poll-engine-api/src/api.rs:193-197 [PollStatus] *)
Inductive poll_status :=
| InProgress (ends_at : N)
| Passed (outcome : N) (count : N)
| Rejected (reason : rejection).

(** packages/poll-engine-api/src/api.rs:213-217 [PollStatusFilter], 201-207 [to_filter] *)
Inductive status_filter := FInProgress | FPassed | FRejected.
Definition to_filter (s : poll_status) : status_filter :=
  match s with InProgress _ => FInProgress | Passed _ _ => FPassed | Rejected _ => FRejected end.
Definition filter_eqb (a b : status_filter) : bool :=
  match a, b with
  | FInProgress, FInProgress | FPassed, FPassed | FRejected, FRejected => true
  | _, _ => false
  end.

(** packages/poll-engine-api/src/api.rs:18-52 [Poll] *)
Record poll := mk_poll {
  p_id : N;
  p_proposer : addr;
  p_deposit : N;
  p_status : poll_status;
  p_started_at : N;
  p_ends_at : N;
  p_quorum : N;
  p_threshold : N;
  p_veto_threshold : option N;
  p_results : omap N
}.

(** packages/poll-engine-api/src/api.rs:89-98 [Vote] *)
Record vote := mk_vote { v_poll : N; v_voter : addr; v_outcome : N; v_amount : N }.

(** packages/poll-engine-api/src/api.rs:113-135 [CreatePollParams] *)
Record create_params := mk_create {
  cp_proposer : N;
  cp_deposit : N;
  cp_ends_at : N;
  cp_quorum : N;
  cp_threshold : N;
  cp_veto_threshold : option N
}.

(** Contract storage: packages/poll-engine/src/state.rs:22-28 [GOV_STATE], 60-73 [polls],
    187-192 [votes] (keyed by (voter, poll id): voter first), and
    contracts/enterprise-governance/src/state.rs:4 [ADMIN]. *)
Record gov := mk_gov {
  g_admin : addr;
  g_count : N;
  g_polls : omap poll;
  g_votes : omap (omap vote)
}.

(** contracts/enterprise-governance/src/contract.rs:25-43 [instantiate],
    packages/poll-engine/src/execute.rs:17-21 [initialize_poll_engine] *)
Definition gov_init (admin : addr) : gov :=
  {| g_admin := admin; g_count := 0; g_polls := oempty; g_votes := oempty |}.

Definition with_results (p : poll) (r : omap N) : poll :=
  {| p_id := p_id p; p_proposer := p_proposer p; p_deposit := p_deposit p; p_status := p_status p;
     p_started_at := p_started_at p; p_ends_at := p_ends_at p; p_quorum := p_quorum p;
     p_threshold := p_threshold p; p_veto_threshold := p_veto_threshold p; p_results := r |}.

Definition with_status (p : poll) (s : poll_status) : poll :=
  {| p_id := p_id p; p_proposer := p_proposer p; p_deposit := p_deposit p; p_status := s;
     p_started_at := p_started_at p; p_ends_at := p_ends_at p; p_quorum := p_quorum p;
     p_threshold := p_threshold p; p_veto_threshold := p_veto_threshold p; p_results := p_results p |}.

Definition set_poll (g : gov) (id : N) (p : poll) : gov :=
  {| g_admin := g_admin g; g_count := g_count g; g_polls := oset (g_polls g) id p; g_votes := g_votes g |}.

Definition votes_of (g : gov) (voter : addr) : omap vote := dflt oempty (oget (g_votes g) voter).
Definition get_vote (g : gov) (voter : addr) (id : N) : option vote := oget (votes_of g voter) id.
Definition set_vote (g : gov) (voter : addr) (id : N) (v : vote) : gov :=
  {| g_admin := g_admin g; g_count := g_count g; g_polls := g_polls g;
     g_votes := oset (g_votes g) voter (oset (votes_of g voter) id v) |}.

(** packages/poll-engine/src/state.rs:552-560 [increase_results]: native [+=] *)
Definition increase_results (p : poll) (o : outcome) (count : N) : poll :=
  match oget (p_results p) (outcome_u8 o) with
  | Some total => with_results p (oset (p_results p) (outcome_u8 o) (u128_add total count))
  | None => with_results p (oset (p_results p) (outcome_u8 o) count)
  end.

(** packages/poll-engine/src/state.rs:590-598 [decrease_results]: native [-=], nothing if absent *)
Definition decrease_results (p : poll) (o : outcome) (count : N) : poll :=
  match oget (p_results p) (outcome_u8 o) with
  | Some total => with_results p (oset (p_results p) (outcome_u8 o) (u128_sub total count))
  | None => p
  end.

(** packages/poll-engine/src/state.rs:702-704 [total_votes]: native fold *)
Definition total_votes (p : poll) : N := fold_left u128_add (ovals (p_results p)) 0.

(** packages/poll-engine/src/state.rs:732-734 [votes_for] *)
Definition votes_for (p : poll) (o : outcome) : N := ogetN (p_results p) (outcome_u8 o).

Definition ratio_or_zero (num den : N) : N :=
  match dec_checked_from_ratio num den with Ok q => q | Err _ => 0 end.

(** packages/poll-engine/src/state.rs:632-641 [ge_threshold] *)
Definition ge_threshold (p : poll) (o : outcome) (count : N) : bool :=
  let threshold := match o with Veto => dflt (p_threshold p) (p_veto_threshold p) | _ => p_threshold p end in
  threshold <=? ratio_or_zero count (u128_sub (total_votes p) (votes_for p Abstain)).

(** packages/poll-engine/src/state.rs:608-610 [threshold_reached] *)
Definition threshold_reached (p : poll) (o : outcome) : bool := ge_threshold p o (votes_for p o).

(** packages/poll-engine/src/state.rs:674-678 [quorum_reached] *)
Definition quorum_reached (p : poll) (quorum max_available : N) : bool :=
  quorum <=? ratio_or_zero (total_votes p) max_available.

(** packages/poll-engine/src/state.rs:196-200 [MostVoted] *)
Inductive most_voted := MNone | MSome (o c : N) | MDraw (o1 c1 o2 c2 : N).

(** packages/poll-engine/src/state.rs:760-781 [most_voted_over_threshold] *)
Definition most_voted_over_threshold (p : poll) : most_voted :=
  if threshold_reached p Veto then MSome (outcome_u8 Veto) (votes_for p Veto)
  else
    match threshold_reached p Yes, threshold_reached p No with
    | true, true =>
        match votes_for p Yes ?= votes_for p No with
        | Lt => MSome (outcome_u8 No) (votes_for p No)
        | Eq => MDraw (outcome_u8 Yes) (votes_for p Yes) (outcome_u8 No) (votes_for p No)
        | Gt => MSome (outcome_u8 Yes) (votes_for p Yes)
        end
    | true, false => MSome (outcome_u8 Yes) (votes_for p Yes)
    | false, true => MSome (outcome_u8 No) (votes_for p No)
    | false, false => MNone
    end.

(** packages/poll-engine/src/state.rs:815-852 [final_status] *)
Definition final_status (p : poll) (max_available : N) : poll_status :=
  if negb (quorum_reached p (p_quorum p) max_available) then Rejected QuorumNotReached
  else match most_voted_over_threshold p with
       | MNone => Rejected ThresholdNotReached
       | MSome o c =>
           if o =? outcome_u8 Yes then Passed o c
           else if o =? outcome_u8 Veto then Rejected IsVetoOutcome
           else Rejected IsRejectingOutcome
       | MDraw o1 _ o2 c2 => Rejected (OutcomeDraw o1 o2 c2)
       end.

(** packages/poll-engine/src/validate.rs:14-36 [validate_create_poll] (0 <= threshold always holds) *)
Definition validate_create_poll (e : env) (c : create_params) : res unit :=
  _ <- guard (cp_threshold c <=? DEC) EInvalidArgument ;;
  guard (negb (cp_ends_at c <=? e_time e)) EInvalidArgument.

(** packages/poll-engine/src/validate.rs:38-50 *)
Definition validate_within_voting_period (now start stop : N) : res unit :=
  guard ((start <=? now) && (now <? stop)) EOutsideVotingPeriod.

(** packages/poll-engine/src/validate.rs:52-59 *)
Definition validate_voting_period_ended (now ends_at : N) : res unit :=
  guard (negb (now <? ends_at)) EPollInProgress.

(** packages/poll-engine/src/validate.rs:61-85 *)
Definition validate_can_end_early (now max_available : N) (p : poll) : res unit :=
  if p_ends_at p <=? now then Ok tt
  else
    _ <- guard (quorum_reached p (p_quorum p) max_available) EPollInProgress ;;
    match most_voted_over_threshold p with MNone => Err EPollInProgress | _ => Ok tt end.

(** packages/poll-engine/src/validate.rs:87-95 *)
Definition validate_not_already_ended (p : poll) : res unit :=
  match p_status p with InProgress _ => Ok tt | _ => Err EPollAlreadyEnded end.

(** packages/poll-engine/src/execute.rs:24-31 [create_poll]; state.rs:34-41 [increment_poll_id]
    (native [+= 1]), 392-420 [new_poll], 489-503 [poll_from] *)
Definition create_poll (g : gov) (e : env) (c : create_params) : res (gov * N) :=
  _ <- validate_create_poll e c ;;
  proposer <- addr_validate (cp_proposer c) ;;
  let id := u64_add (g_count g) 1 in
  let p := {| p_id := id; p_proposer := proposer; p_deposit := cp_deposit c;
              p_status := InProgress (cp_ends_at c); p_started_at := e_time e;
              p_ends_at := cp_ends_at c; p_quorum := cp_quorum c; p_threshold := cp_threshold c;
              p_veto_threshold := cp_veto_threshold c; p_results := oempty |} in
  Ok ({| g_admin := g_admin g; g_count := id; g_polls := oset (g_polls g) id p; g_votes := g_votes g |}, id).

(** packages/poll-engine/src/execute.rs:34-93 [cast_vote] *)
Definition cast_vote (g : gov) (e : env) (id : N) (o : outcome) (voter amount : N) : res gov :=
  _ <- guard (negb ((id =? 0) || (g_count g <? id))) EPollNotFound ;;
  voter <- addr_validate voter ;;
  p <- ok_or (oget (g_polls g) id) EPollNotFound ;;
  _ <- validate_not_already_ended p ;;
  _ <- validate_within_voting_period (e_time e) (p_started_at p) (p_ends_at p) ;;
  let new := {| v_poll := id; v_voter := voter; v_outcome := outcome_u8 o; v_amount := amount |} in
  p' <- (match get_vote g voter id with
         | Some old =>
             oo <- outcome_of_u8 (v_outcome old) ;;
             Ok (increase_results (decrease_results p oo (v_amount old)) o amount)
         | None => Ok (increase_results p o amount)
         end) ;;
  Ok (set_poll (set_vote g voter id new) id p').

(** packages/poll-engine/src/execute.rs:96-124 [end_poll] *)
Definition end_poll (g : gov) (e : env) (id max_available : N) (error_if_ended allow_early : bool) : res gov :=
  p <- ok_or (oget (g_polls g) id) EPollNotFound ;;
  _ <- (if allow_early then validate_can_end_early (e_time e) max_available p
        else validate_voting_period_ended (e_time e) (p_ends_at p)) ;;
  _ <- (if error_if_ended then validate_not_already_ended p else Ok tt) ;;
  Ok (set_poll g id (with_status p (final_status p max_available))).

(** packages/poll-engine/src/query.rs:15-26 [query_poll], 66-77 [query_poll_status] *)
Definition query_poll (g : gov) (id : N) : res poll := ok_or (oget (g_polls g) id) EPollNotFound.

(** packages/poll-engine/src/query.rs:80-94 [query_simulate_end_poll_status] *)
Definition query_simulate (g : gov) (id max_available : N) : res poll_status :=
  p <- query_poll g id ;; Ok (final_status p max_available).

(** packages/poll-engine/src/query.rs:96-108 [query_poll_voter] *)
Definition query_poll_voter (g : gov) (id voter : N) : res (option vote) :=
  voter <- addr_validate voter ;; Ok (get_vote g voter id).

(** packages/poll-engine/src/query.rs:110-150 [query_poll_voters], ascending order: the poll index
    yields the votes of that poll by voter. [start_after]/[end_at] are voters. *)
Definition query_poll_voters (g : gov) (id : N) (start_after end_at limit : option N) : list vote :=
  let all := flat_map (fun kv => match oget (snd kv) id with Some v => [(fst kv, v)] | None => [] end)
                      (elems (g_votes g)) in
  let r := map snd (filter (fun kv =>
             match start_after with Some s => s <? fst kv | None => true end &&
             match end_at with Some s => fst kv <=? s | None => true end) all) in
  match limit with Some n => take n r | None => r end.

(** packages/poll-engine/src/query.rs:152-178 [query_voter] *)
Definition query_voter (g : gov) (voter : N) (start_after limit : option N) : res (list vote) :=
  voter <- addr_validate voter ;;
  let r := map snd (orange (votes_of g voter) start_after) in
  Ok (match limit with Some n => take n r | None => r end).

(** packages/poll-engine/src/query.rs:28-64 [query_polls] *)
Definition query_polls (g : gov) (filt : option status_filter) (start_after end_at limit : option N)
    (descending : bool) : list poll :=
  let sel := filter (fun kv : N * poll =>
               match start_after with Some s => s <? fst kv | None => true end &&
               match end_at with Some s => fst kv <=? s | None => true end &&
               match filt with Some f => filter_eqb (to_filter (p_status (snd kv))) f | None => true end)
               (elems (g_polls g)) in
  let r := map snd sel in
  let r := if descending then rev r else r in
  match limit with Some n => take n r | None => r end.

(** contracts/enterprise-governance/src/contract.rs:82-108 [update_votes]; one loop iteration *)
Definition update_vote (e : env) (voter amount : N) (g : gov) (v : vote) : res gov :=
  p <- ok_or (oget (g_polls g) (v_poll v)) ENotFound ;;
  match p_status p with
  | InProgress ends_at =>
      if e_time e <? ends_at then
        o <- outcome_of_u8 (v_outcome v) ;;
        cast_vote g e (v_poll v) o voter amount
      else Ok g
  | _ => Ok g
  end.

Definition update_votes (g : gov) (e : env) (voter amount : N) : res gov :=
  vs <- query_voter g voter None None ;;
  fold_res (update_vote e voter amount) g vs.

(** packages/enterprise-governance-api/src/msg.rs [ExecuteMsg] *)
Inductive gov_msg :=
| GCreatePoll (c : create_params)
| GCastVote (id : N) (o : outcome) (voter amount : N)
| GUpdateVotes (voter amount : N)
| GEndPoll (id max_available : N) (error_if_ended allow_early : bool).

(** contracts/enterprise-governance/src/contract.rs:46-65 [execute]; the result carries the poll id
    that [create_poll] puts in its response attributes (67-74). *)
Definition gov_execute (g : gov) (e : env) (sender : addr) (m : gov_msg) : res (gov * option N) :=
  _ <- guard (sender =? g_admin g) EUnauthorized ;;
  match m with
  | GCreatePoll c => '(g', id) <- create_poll g e c ;; Ok (g', Some id)
  | GCastVote id o voter amount => g' <- cast_vote g e id o voter amount ;; Ok (g', None)
  | GUpdateVotes voter amount => g' <- update_votes g e voter amount ;; Ok (g', None)
  | GEndPoll id mx ie ae => g' <- end_poll g e id mx ie ae ;; Ok (g', None)
  end.

(** A history: calls by arbitrary senders at arbitrary block times; a failed call changes nothing. *)
Record gov_call := mk_gcall { gc_env : env; gc_sender : addr; gc_msg : gov_msg }.

Definition gov_step (g : gov) (c : gov_call) : gov :=
  match gov_execute g (gc_env c) (gc_sender c) (gc_msg c) with
  | Ok (g', _) => g'
  | Err _ => g
  end.

Definition gov_run (g : gov) (cs : list gov_call) : gov := fold_left gov_step cs g.
