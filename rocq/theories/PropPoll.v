(** Governance properties C01 - C10. Each theorem is closed by a lemma of [PollFacts]. *)
From Verif Require Import Base OMap PollModel PollSpec PollExamples PollFacts.

(** C01: the reported count of every outcome is the sum of the recorded votes. *)
Theorem C01_tally_is_sum_of_votes_mod : forall admin cs id p o,
  history cs ->
  query_poll (gov_run (gov_init admin) cs) id = Ok p ->
  ogetN (p_results p) (outcome_u8 o) = tally (gov_run (gov_init admin) cs) id o mod 2 ^ 128.
Proof. exact tally_mod. Qed.
Print Assumptions C01_tally_is_sum_of_votes_mod.

Theorem C01_tally_is_sum_of_votes : forall admin cs id p o,
  history cs ->
  query_poll (gov_run (gov_init admin) cs) id = Ok p ->
  lsum v_amount (recorded_votes (gov_run (gov_init admin) cs) id) < 2 ^ 128 ->
  ogetN (p_results p) (outcome_u8 o) = tally (gov_run (gov_init admin) cs) id o.
Proof. exact tally_exact. Qed.
Print Assumptions C01_tally_is_sum_of_votes.

(** one recorded vote per voter, and the voter list agrees with the single-voter query *)
Theorem C01_one_vote_per_voter : forall admin cs id,
  history cs ->
  NoDup (map v_voter (recorded_votes (gov_run (gov_init admin) cs) id)) /\
  forall v, In v (recorded_votes (gov_run (gov_init admin) cs) id) <->
            query_poll_voter (gov_run (gov_init admin) cs) id (v_voter v) = Ok (Some v).
Proof. exact one_vote_per_voter. Qed.
Print Assumptions C01_one_vote_per_voter.

(** without the 128-bit bound the exact equality fails: two votes can wrap the counter *)
Theorem C01_exact_tally_unbounded_refuted : exists admin cs id p o,
  history cs /\ query_poll (gov_run (gov_init admin) cs) id = Ok p /\
  ogetN (p_results p) (outcome_u8 o) <> tally (gov_run (gov_init admin) cs) id o.
Proof. exact tally_wraps. Qed.
Print Assumptions C01_exact_tally_unbounded_refuted.

Example C01_nonvacuous :
  history ex_revote /\
  exists p, query_poll (ex_g ex_revote) 1 = Ok p /\ ogetN (p_results p) 1 = 55 /\
            lsum v_amount (recorded_votes (ex_g ex_revote) 1) = 60.
Proof. exact ex_revote_tally. Qed.

(** C02: an accepted vote replaces exactly the voter's own previous vote on that poll. *)
Theorem C02_revote_replaces : forall admin cs e sender id o voter amount g' r,
  history cs -> amount < 2 ^ 128 ->
  gov_execute (gov_run (gov_init admin) cs) e sender (GCastVote id o voter amount) = Ok (g', r) ->
  let g := gov_run (gov_init admin) cs in
  only_counts_change g g' /\
  query_poll_voter g' id voter = Ok (Some (mk_vote id voter (outcome_u8 o) amount)) /\
  (forall voter' id', voter' <> voter \/ id' <> id -> query_poll_voter g' id' voter' = query_poll_voter g id' voter') /\
  (forall id', id' <> id -> query_poll g' id' = query_poll g id') /\
  (forall old, query_poll_voter g id voter = Ok old ->
     lsum v_amount (recorded_votes g' id) + dflt 0 (option_map v_amount old) =
     lsum v_amount (recorded_votes g id) + amount).
Proof. exact revote_replaces. Qed.
Print Assumptions C02_revote_replaces.

Example C02_nonvacuous :
  exists g', gov_execute (ex_g ex_open) (mk_env 50 5) ex_admin (GCastVote 1 No 101 30) = Ok (g', None).
Proof. exact ex_revote_ok. Qed.

(** C03: outside the voting window, or once ended, no call changes a poll's votes or counts. *)
Theorem C03_votes_frozen : forall admin cs c id p,
  history (cs ++ [c]) ->
  query_poll (gov_run (gov_init admin) cs) id = Ok p ->
  ~ open_at p (e_time (gc_env c)) ->
  let g := gov_run (gov_init admin) cs in
  let g' := gov_run (gov_init admin) (cs ++ [c]) in
  (forall voter, query_poll_voter g' id voter = query_poll_voter g id voter) /\
  exists p', query_poll g' id = Ok p' /\ p_results p' = p_results p.
Proof. exact votes_frozen. Qed.
Print Assumptions C03_votes_frozen.

Theorem C03_vote_rejected_outside_window : forall g e sender id o voter amount p,
  query_poll g id = Ok p -> ~ open_at p (e_time e) ->
  is_ok (gov_execute g e sender (GCastVote id o voter amount)) = false.
Proof. exact vote_rejected. Qed.
Print Assumptions C03_vote_rejected_outside_window.

(** and inside the window every well-formed vote by the admin is accepted *)
Theorem C03_vote_accepted_inside_window : forall admin cs e id o voter amount p,
  history cs -> voter <> 0 ->
  query_poll (gov_run (gov_init admin) cs) id = Ok p -> open_at p (e_time e) ->
  is_ok (gov_execute (gov_run (gov_init admin) cs) e admin (GCastVote id o voter amount)) = true.
Proof. exact vote_accepted. Qed.
Print Assumptions C03_vote_accepted_inside_window.

Example C03_nonvacuous :
  history (ex_open ++ [ex_call 1000 (GUpdateVotes 101 9)]) /\
  exists p, query_poll (ex_g ex_open) 1 = Ok p /\ ~ open_at p 1000 /\ open_at p 999.
Proof. exact ex_window. Qed.

(** C04: ending a poll records the verdict of the voting rule on the recorded votes. *)
Theorem C04_verdict_is_the_rule : forall admin cs e sender id avail err_if_ended early g' r p,
  history cs ->
  let g := gov_run (gov_init admin) cs in
  query_poll g id = Ok p ->
  gov_execute g e sender (GEndPoll id avail err_if_ended early) = Ok (g', r) ->
  lsum v_amount (recorded_votes g id) < 2 ^ 128 ->
  lsum v_amount (recorded_votes g id) * DEC / avail < 2 ^ 128 ->
  exists p', query_poll g' id = Ok p' /\
    verdict (p_quorum p) (p_threshold p) (dflt (p_threshold p) (p_veto_threshold p))
            (tally g id Yes) (tally g id No) (tally g id Abstain) (tally g id Veto) avail (p_status p').
Proof. exact verdict_is_the_rule. Qed.
Print Assumptions C04_verdict_is_the_rule.

(** the rule names exactly one verdict, so the recorded one is determined by it *)
Theorem C04_rule_is_functional : forall q t v y n a ve av s1 s2,
  verdict q t v y n a ve av s1 -> verdict q t v y n a ve av s2 -> s1 = s2.
Proof. exact rule_functional. Qed.
Print Assumptions C04_rule_is_functional.

(** the hypothesis on the turnout ratio: it can only fail when more votes were cast than were available *)
Theorem C04_turnout_fits_when_not_above_available : forall total avail,
  total <= avail -> total * DEC / avail < 2 ^ 128.
Proof. exact turnout_fits. Qed.
Print Assumptions C04_turnout_fits_when_not_above_available.

(** and when it fails, the poll is rejected for lack of quorum although turnout is enormous *)
Theorem C04_turnout_overflow_counts_as_zero : forall p avail,
  avail <> 0 -> 2 ^ 128 <= total_votes p * DEC / avail -> p_quorum p <> 0 ->
  final_status p avail = Rejected QuorumNotReached.
Proof. exact turnout_overflow. Qed.
Print Assumptions C04_turnout_overflow_counts_as_zero.

(** The comment on [Poll.threshold] (packages/poll-engine-api/src/api.rs:41) divides by the AVAILABLE
    votes minus abstentions; the code divides by the CAST ones: a poll can pass below that. *)
Theorem C04_threshold_of_available_votes_refuted : exists admin cs id avail g' p',
  history cs /\
  gov_execute (gov_run (gov_init admin) cs) (mk_env 1000 100) admin (GEndPoll id avail false false) = Ok (g', None) /\
  query_poll g' id = Ok p' /\ (exists c, p_status p' = Passed 0 c) /\
  let g := gov_run (gov_init admin) cs in
  ~ reaches (tally g id Yes) (avail - tally g id Abstain) (p_threshold p').
Proof. exact threshold_of_available_refuted. Qed.
Print Assumptions C04_threshold_of_available_votes_refuted.

Example C04_nonvacuous :
  history ex_open /\
  exists g' p', gov_execute (ex_g ex_open) (mk_env 1000 100) ex_admin (GEndPoll 1 100 false false) = Ok (g', None) /\
                query_poll g' 1 = Ok p' /\ p_status p' = Passed 0 40.
Proof. exact ex_verdict. Qed.

(** C05: a poll that has ended never becomes in-progress again. *)
Theorem C05_ended_stays_ended : forall admin cs cs' id p,
  history (cs ++ cs') ->
  query_poll (gov_run (gov_init admin) cs) id = Ok p -> ended p ->
  exists p', query_poll (gov_run (gov_init admin) (cs ++ cs')) id = Ok p' /\ ended p'.
Proof. exact ended_stays_ended. Qed.
Print Assumptions C05_ended_stays_ended.

Theorem C05_strict_end_of_ended_poll_errors : forall g e sender id avail early p,
  query_poll g id = Ok p -> ended p ->
  is_ok (gov_execute g e sender (GEndPoll id avail true early)) = false.
Proof. exact strict_end_errors. Qed.
Print Assumptions C05_strict_end_of_ended_poll_errors.

(** a successful end-poll does end it and changes nothing else *)
Theorem C05_end_ends : forall g e sender id avail err_if_ended early g' r,
  gov_execute g e sender (GEndPoll id avail err_if_ended early) = Ok (g', r) ->
  (exists p p', query_poll g id = Ok p /\ query_poll g' id = Ok p' /\ ended p' /\ terms p' = terms p /\ p_results p' = p_results p) /\
  (forall id', id' <> id -> query_poll g' id' = query_poll g id') /\
  (forall id' voter, query_poll_voter g' id' voter = query_poll_voter g id' voter).
Proof. exact end_ends. Qed.
Print Assumptions C05_end_ends.

Example C05_nonvacuous :
  history ex_ended /\ exists p, query_poll (ex_g ex_ended) 1 = Ok p /\ ended p.
Proof. exact ex_ended_ended. Qed.

(** C06: poll ids are fresh and consecutive; poll terms never change. *)
Theorem C06_fresh_id : forall admin cs e c g' r,
  history cs -> N.of_nat (length cs) + 1 < 2 ^ 64 ->
  let g := gov_run (gov_init admin) cs in
  gov_execute g e admin (GCreatePoll c) = Ok (g', r) ->
  exists id p, r = Some id /\ is_ok (query_poll g id) = false /\
    id = N.of_nat (length (elems (g_polls g))) + 1 /\
    query_poll g' id = Ok p /\ p_status p = InProgress (cp_ends_at c) /\
    terms p = (id, cp_proposer c, cp_deposit c, e_time e, cp_ends_at c, cp_quorum c, cp_threshold c, cp_veto_threshold c) /\
    e_time e < cp_ends_at c /\ cp_threshold c <= DEC /\
    (forall id' p', query_poll g id' = Ok p' -> query_poll g' id' = Ok p').
Proof. exact fresh_id. Qed.
Print Assumptions C06_fresh_id.

Theorem C06_terms_never_change : forall admin cs cs' id p,
  history (cs ++ cs') ->
  query_poll (gov_run (gov_init admin) cs) id = Ok p ->
  exists p', query_poll (gov_run (gov_init admin) (cs ++ cs')) id = Ok p' /\ terms p' = terms p.
Proof. exact terms_never_change. Qed.
Print Assumptions C06_terms_never_change.

Example C06_nonvacuous :
  history ex_ended /\
  exists g', gov_execute (ex_g ex_ended) (mk_env 1500 150) ex_admin
               (GCreatePoll (mk_create 50 0 2000 (pct 30) (pct 50) None)) = Ok (g', Some 2).
Proof. exact ex_second_poll. Qed.

(** C07: only the admin can act, and the admin never changes. *)
Theorem C07_admin_only : forall g e sender m,
  sender <> g_admin g -> gov_execute g e sender m = Err EUnauthorized.
Proof. exact admin_only. Qed.
Print Assumptions C07_admin_only.

Theorem C07_admin_constant : forall admin cs, g_admin (gov_run (gov_init admin) cs) = admin.
Proof. exact admin_constant. Qed.
Print Assumptions C07_admin_constant.

Example C07_nonvacuous : 8 <> g_admin (ex_g ex_open).
Proof. exact ex_not_admin. Qed.

(** C08: ending before the end time needs permission, quorum and a decided option. *)
Theorem C08_early_end_needs_decision : forall admin cs e sender id avail err_if_ended early g' r p,
  history cs ->
  let g := gov_run (gov_init admin) cs in
  query_poll g id = Ok p -> e_time e < p_ends_at p ->
  lsum v_amount (recorded_votes g id) < 2 ^ 128 ->
  lsum v_amount (recorded_votes g id) * DEC / avail < 2 ^ 128 ->
  gov_execute g e sender (GEndPoll id avail err_if_ended early) = Ok (g', r) ->
  let yes := tally g id Yes in let no := tally g id No in
  let abstain := tally g id Abstain in let veto := tally g id Veto in
  early = true /\
  reaches (yes + no + abstain + veto) avail (p_quorum p) /\
  (reaches veto (yes + no + veto) (dflt (p_threshold p) (p_veto_threshold p)) \/
   reaches yes (yes + no + veto) (p_threshold p) \/ reaches no (yes + no + veto) (p_threshold p)).
Proof. exact early_end_needs_decision. Qed.
Print Assumptions C08_early_end_needs_decision.

(** The converse "the remaining voters could not have changed the verdict" is false: 100 votes
    available, 10 Yes end the poll as passed; had 80 No been cast before, it would be rejected. *)
Theorem C08_early_verdict_is_final_refuted : exists admin cs later g1 p1 g2 p2,
  history (cs ++ later) /\
  lsum v_amount (recorded_votes (gov_run (gov_init admin) (cs ++ later)) 1) <= 100 /\
  gov_execute (gov_run (gov_init admin) cs) (mk_env 20 2) admin (GEndPoll 1 100 false true) = Ok (g1, None) /\
  query_poll g1 1 = Ok p1 /\ (exists c, p_status p1 = Passed 0 c) /\
  gov_execute (gov_run (gov_init admin) (cs ++ later)) (mk_env 1000 100) admin (GEndPoll 1 100 false true) = Ok (g2, None) /\
  query_poll g2 1 = Ok p2 /\ p_status p2 = Rejected IsRejectingOutcome.
Proof. exact early_verdict_refuted. Qed.
Print Assumptions C08_early_verdict_is_final_refuted.

(** C09: simulation = what ending records. *)
Theorem C09_simulation_is_exact : forall g e sender id avail err_if_ended early g' r,
  gov_execute g e sender (GEndPoll id avail err_if_ended early) = Ok (g', r) ->
  exists p', query_poll g' id = Ok p' /\ query_simulate g id avail = Ok (p_status p').
Proof. exact simulation_exact. Qed.
Print Assumptions C09_simulation_is_exact.

Example C09_nonvacuous : query_simulate (ex_g ex_open) 1 100 = Ok (Passed 0 40).
Proof. exact ex_simulate. Qed.

(** C10: a weight update always succeeds and rewrites exactly the voter's votes on open polls. *)
Theorem C10_weight_update : forall admin cs e voter amount,
  history cs -> times_upto cs (e_time e) -> amount < 2 ^ 128 -> voter <> 0 ->
  let g := gov_run (gov_init admin) cs in
  exists g', gov_execute g e admin (GUpdateVotes voter amount) = Ok (g', None) /\
    only_counts_change g g' /\
    (forall id p, query_poll g id = Ok p ->
       query_poll_voter g id voter = Ok None \/ ~ open_at p (e_time e) -> query_poll g' id = Ok p) /\
    (forall voter' id, voter' <> voter -> query_poll_voter g' id voter' = query_poll_voter g id voter') /\
    (forall id, query_poll_voter g id voter = Ok None -> query_poll_voter g' id voter = Ok None) /\
    (forall id p v, query_poll g id = Ok p -> query_poll_voter g id voter = Ok (Some v) ->
       (open_at p (e_time e) -> query_poll_voter g' id voter = Ok (Some (mk_vote id voter (v_outcome v) amount))) /\
       (~ open_at p (e_time e) -> query_poll_voter g' id voter = Ok (Some v))).
Proof. exact weight_update. Qed.
Print Assumptions C10_weight_update.

Example C10_nonvacuous :
  history ex_open /\ times_upto ex_open 50 /\
  query_poll_voter (ex_g ex_update) 1 101 = Ok (Some (mk_vote 1 101 0 60)).
Proof. exact ex_update_ok. Qed.

(** C55: the poll listing is exactly the polls of the requested status and id range, by id, cut at the limit. *)
Theorem C55_poll_listing : forall admin cs filt lo hi,
  history cs ->
  let g := gov_run (gov_init admin) cs in
  let l := query_polls g filt lo hi None false in
  (forall p, In p l <->
     query_poll g (p_id p) = Ok p /\ in_range lo hi (p_id p) /\
     match filt with Some f => to_filter (p_status p) = f | None => True end) /\
  ascending (map p_id l) /\
  (forall limit, query_polls g filt lo hi limit false = match limit with Some n => firstn (N.to_nat n) l | None => l end) /\
  (forall limit, query_polls g filt lo hi limit true = match limit with Some n => firstn (N.to_nat n) (rev l) | None => rev l end).
Proof. exact polls_listing. Qed.
Print Assumptions C55_poll_listing.

Example C55_nonvacuous :
  map p_id (query_polls (ex_g ex_ended) (Some FPassed) None (Some 5) (Some 10) true) = [1] /\ history ex_ended.
Proof. exact ex_listing. Qed.

(** C56: "the verdict of an ended poll is final" is false of this contract: ending it again without
    [error_if_already_ended] (which is how the controller calls it) recomputes the verdict for the votes
    available then. (The controller resolves a proposal only once: C27.) *)
Theorem C56_verdict_final_refuted : exists admin cs c g' p p' n,
  history (cs ++ [c]) /\ query_poll (gov_run (gov_init admin) cs) 1 = Ok p /\ p_status p = Passed 0 n /\
  e_time (gc_env c) = 5000 /\ gov_execute (gov_run (gov_init admin) cs) (gc_env c) admin (gc_msg c) = Ok (g', None) /\
  query_poll g' 1 = Ok p' /\ p_status p' = Rejected QuorumNotReached.
Proof. exact verdict_rewritten. Qed.
Print Assumptions C56_verdict_final_refuted.
