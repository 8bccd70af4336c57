(** The governance properties, proved in the form in which [PropPoll] states them. *)
From Verif Require Import Base OMap OMapLemmas PollModel PollSpec PollExamples PollProofs.

Lemma query_poll_ok g id p : query_poll g id = Ok p <-> oget (g_polls g) id = Some p.
Proof. unfold query_poll. destruct (oget _ _); cbn; split; intros H; inversion H; reflexivity. Qed.

Lemma tally_mod admin cs id p o :
  history cs -> query_poll (gov_run (gov_init admin) cs) id = Ok p ->
  ogetN (p_results p) (outcome_u8 o) = tally (gov_run (gov_init admin) cs) id o mod 2 ^ 128.
Proof. exact (reported_tally admin cs id p o). Qed.

Lemma tally_le g id o : tally g id o <= lsum v_amount (recorded_votes g id).
Proof.
  unfold tally. rewrite lsum_filter. apply lsum_le_in. intros v _. destruct (_ =? _); lia.
Qed.

Lemma tally_exact admin cs id p o :
  history cs -> query_poll (gov_run (gov_init admin) cs) id = Ok p ->
  lsum v_amount (recorded_votes (gov_run (gov_init admin) cs) id) < 2 ^ 128 ->
  ogetN (p_results p) (outcome_u8 o) = tally (gov_run (gov_init admin) cs) id o.
Proof.
  intros Hh Hq Hb. rewrite (tally_mod admin cs id p o Hh Hq). apply N.mod_small.
  eapply N.le_lt_trans; [apply tally_le|exact Hb].
Qed.

Lemma one_vote_per_voter admin cs id :
  history cs ->
  NoDup (map v_voter (recorded_votes (gov_run (gov_init admin) cs) id)) /\
  forall v, In v (recorded_votes (gov_run (gov_init admin) cs) id) <->
            query_poll_voter (gov_run (gov_init admin) cs) id (v_voter v) = Ok (Some v).
Proof.
  intros Hh. split; [apply recorded_votes_NoDup; exact Hh|]. intros v.
  destruct (run_inv admin cs Hh) as [Hi _]. rewrite (recorded_votes_In _ id v Hi).
  unfold query_poll_voter, addr_validate. split; intros H.
  - destruct Hi as (_ & Hv & _). destruct (Hv _ _ _ H) as (_ & _ & H0 & _).
    replace (v_voter v =? 0) with false by lia. cbn [bind]. rewrite H. reflexivity.
  - destruct (v_voter v =? 0); cbn [bind] in H; congruence.
Qed.

Lemma query_voter_eq g g' id voter :
  get_vote g' voter id = get_vote g voter id -> query_poll_voter g' id voter = query_poll_voter g id voter.
Proof. unfold query_poll_voter, addr_validate. destruct (voter =? 0); cbn [bind]; congruence. Qed.

Lemma query_voter_some g id voter ov : query_poll_voter g id voter = Ok ov -> voter <> 0 /\ get_vote g voter id = ov.
Proof. unfold query_poll_voter, addr_validate. destruct (voter =? 0) eqn:E; cbn [bind]; intros H; [discriminate|]. split; [lia|congruence]. Qed.

Lemma query_voter_intro g id voter : voter <> 0 -> query_poll_voter g id voter = Ok (get_vote g voter id).
Proof. intros H. unfold query_poll_voter, addr_validate. replace (voter =? 0) with false by lia. reflexivity. Qed.

(** all recorded votes, summed *)
Definition total_sum (g : gov) (id : N) : N :=
  osum (fun _ m => match oget m id with Some v => v_amount v | None => 0 end) (g_votes g).

Lemma recorded_total g id : lsum v_amount (recorded_votes g id) = total_sum g id.
Proof.
  unfold recorded_votes, query_poll_voters, total_sum, osum. rewrite lsum_map, lsum_filter.
  induction (elems (g_votes g)) as [|[k m] t IH]; [reflexivity|].
  cbn [flat_map]. rewrite lsum_app, lsum_cons, <- IH. f_equal. cbn [snd fst].
  destruct (oget m id); [|reflexivity]. rewrite lsum_cons. cbn. lia.
Qed.

Lemma total_sum_set g voter id v :
  total_sum (set_vote g voter id v) id + dflt 0 (option_map v_amount (get_vote g voter id)) = total_sum g id + v_amount v.
Proof.
  unfold total_sum, set_vote; cbn [g_votes].
  pose proof (osum_oset (fun _ m => match oget m id with Some v => v_amount v | None => 0 end) (g_votes g) voter
                (oset (votes_of g voter) id v)) as H.
  cbv beta in H. rewrite oget_oset_eq in H. rewrite <- H. f_equal.
  unfold oval, get_vote, votes_of. destruct (oget (g_votes g) voter) as [m|]; cbn [dflt].
  - destruct (oget m id); reflexivity.
  - rewrite oget_empty. reflexivity.
Qed.

Lemma total_four g id :
  inv g -> total_sum g id = tally g id Yes + tally g id No + tally g id Abstain + tally g id Veto.
Proof.
  intros (_ & Hv & _). rewrite !tally_vsum. unfold total_sum, vsum. cbn [outcome_u8].
  rewrite <- !osum_add. apply osum_ext. intros voter m Hm. unfold contrib.
  destruct (oget m id) as [v|] eqn:E; [|reflexivity].
  assert (Hg : get_vote g voter id = Some v) by (unfold get_vote, votes_of; rewrite Hm; exact E).
  destruct (Hv _ _ _ Hg) as (_ & _ & _ & Ho & _).
  assert (Hc : v_outcome v = 0 \/ v_outcome v = 1 \/ v_outcome v = 2 \/ v_outcome v = 3) by lia.
  destruct Hc as [Ec|[Ec|[Ec|Ec]]]; rewrite Ec; cbn; lia.
Qed.

Lemma cast_only_counts g e id o voter amount g' : cast_vote g e id o voter amount = Ok g' -> only_counts_change g g'.
Proof.
  intros H. apply cast_vote_ok in H. destruct H as (p & _ & _ & _ & Hp & _ & _ & ->). split.
  - intros id' q Hq. apply query_poll_ok in Hq. unfold query_poll. cbn. rewrite oget_oset. destruct (id =? id') eqn:E.
    + apply N.eqb_eq in E; subst. rewrite Hp in Hq. inversion Hq; subst. eexists. repeat split; reflexivity.
    + rewrite Hq. eexists. repeat split; reflexivity.
  - intros id' q Hq. apply query_poll_ok in Hq. cbn in Hq. rewrite oget_oset in Hq. destruct (id =? id') eqn:E.
    + apply N.eqb_eq in E; subst. exists p. apply query_poll_ok. exact Hp.
    + exists q. apply query_poll_ok. exact Hq.
Qed.

Lemma only_counts_refl g : only_counts_change g g.
Proof. split; intros; eexists; [split; [eassumption|split; reflexivity]|eassumption]. Qed.

Lemma only_counts_trans g1 g2 g3 : only_counts_change g1 g2 -> only_counts_change g2 g3 -> only_counts_change g1 g3.
Proof.
  intros [A B] [C D]. split.
  - intros id p Hp. destruct (A _ _ Hp) as (p' & Hp' & E1 & E2). destruct (C _ _ Hp') as (p'' & Hp'' & E3 & E4).
    exists p''. split; [exact Hp''|]. split; congruence.
  - intros id p Hp. destruct (D _ _ Hp) as (p' & Hp'). exact (B _ _ Hp').
Qed.

Lemma update_only_counts g e voter amount g' : update_votes g e voter amount = Ok g' -> only_counts_change g g'.
Proof.
  intros H. unfold update_votes in H. bind_inv H.
  refine (fold_res_inv (fun s => only_counts_change g s) _ _ _ g g' (only_counts_refl g) H).
  intros s v s' _ Hs Hu. apply update_vote_ok in Hu. destruct Hu as [->|(o & _ & Hu)]; [exact Hs|].
  eapply only_counts_trans; [exact Hs|]. eapply cast_only_counts; eassumption.
Qed.

Lemma revote_replaces admin cs e sender id o voter amount g' r :
  history cs -> amount < 2 ^ 128 ->
  gov_execute (gov_run (gov_init admin) cs) e sender (GCastVote id o voter amount) = Ok (g', r) ->
  let g := gov_run (gov_init admin) cs in
  only_counts_change g g' /\
  query_poll_voter g' id voter = Ok (Some (mk_vote id voter (outcome_u8 o) amount)) /\
  (forall voter' id', voter' <> voter \/ id' <> id -> query_poll_voter g' id' voter' = query_poll_voter g id' voter') /\
  (forall id', id' <> id -> query_poll g' id' = query_poll g id') /\
  (forall old, query_poll_voter g id voter = Ok old ->
     lsum v_amount (recorded_votes g' id) + dflt 0 (option_map v_amount old) =
     lsum v_amount (recorded_votes g id) + amount).
Proof.
  intros Hh Ha H g. fold g in H. apply gov_execute_ok in H. destruct H as [_ [H _]].
  split; [eapply cast_only_counts; exact H|].
  apply cast_vote_ok in H. destruct H as (p & H0 & _ & _ & _ & _ & _ & ->). unfold cast_result. split; [|split; [|split]].
  - rewrite query_voter_intro by assumption. rewrite get_vote_set_poll, get_set_vote, !N.eqb_refl. reflexivity.
  - intros voter' id' Hne. apply query_voter_eq. rewrite get_vote_set_poll, get_set_vote.
    destruct ((voter =? voter') && (id =? id')) eqn:E; [|reflexivity]. exfalso. lia.
  - intros id' Hne. unfold query_poll. cbn. rewrite oget_oset_ne by congruence. reflexivity.
  - intros old Ho. apply query_voter_some in Ho. destruct Ho as [_ Ho]. rewrite !recorded_total.
    change (total_sum (set_poll ?g _ _) id) with (total_sum g id).
    rewrite <- Ho, total_sum_set. reflexivity.
Qed.

Lemma history_app cs cs' : history (cs ++ cs') -> history cs /\ Forall (fun c => typed_msg (gc_msg c)) cs' /\
  N.of_nat (length cs) + N.of_nat (length cs') < M64.
Proof.
  intros [H1 H2]. apply Forall_app in H1. destruct H1. rewrite app_length in H2. split; [split; [assumption|lia]|]. split; [assumption|lia].
Qed.

Lemma run_app g cs cs' : gov_run g (cs ++ cs') = gov_run (gov_run g cs) cs'.
Proof. unfold gov_run. apply fold_left_app. Qed.

Lemma votes_frozen admin cs c id p :
  history (cs ++ [c]) ->
  query_poll (gov_run (gov_init admin) cs) id = Ok p ->
  ~ open_at p (e_time (gc_env c)) ->
  let g := gov_run (gov_init admin) cs in
  let g' := gov_run (gov_init admin) (cs ++ [c]) in
  (forall voter, query_poll_voter g' id voter = query_poll_voter g id voter) /\
  exists p', query_poll g' id = Ok p' /\ p_results p' = p_results p.
Proof.
  intros Hh Hq Ho g g'. destruct (history_app _ _ Hh) as (Hh1 & _ & Hlen). cbn [length] in Hlen.
  destruct (run_inv admin cs Hh1) as [Hi Hc]. fold g in Hi, Hc, Hq.
  assert (E : g' = gov_step g c) by (unfold g'; rewrite run_app; reflexivity).
  apply query_poll_ok in Hq.
  destruct (frozen_step g c id p Hq) as [H1 H2]; [|exact Ho|].
  - intros c' _. assert (Eu : u64_add (g_count g) 1 = g_count g + 1) by (unfold u64_add; apply N.mod_small; lia).
    rewrite Eu. destruct Hi as (Hp & _). destruct (Hp _ _ Hq) as (_ & Hr & _). lia.
  - rewrite E. split; [intros; apply query_voter_eq, H1|]. destruct (H2 _ Hq) as (p' & Hp' & Hr).
    exists p'. split; [apply query_poll_ok; exact Hp'|exact Hr].
Qed.

Lemma vote_rejected g e sender id o voter amount p :
  query_poll g id = Ok p -> ~ open_at p (e_time e) ->
  is_ok (gov_execute g e sender (GCastVote id o voter amount)) = false.
Proof.
  intros Hq Ho. destruct (gov_execute g e sender (GCastVote id o voter amount)) as [[g' r]|] eqn:E; [|reflexivity].
  exfalso. apply gov_execute_ok in E. destruct E as [_ [E _]]. apply cast_vote_ok in E.
  destruct E as (p' & _ & _ & _ & Hp & Hop & _). apply query_poll_ok in Hq. rewrite Hq in Hp. inversion Hp; subst. contradiction.
Qed.

Lemma vote_accepted admin cs e id o voter amount p :
  history cs -> voter <> 0 ->
  query_poll (gov_run (gov_init admin) cs) id = Ok p -> open_at p (e_time e) ->
  is_ok (gov_execute (gov_run (gov_init admin) cs) e admin (GCastVote id o voter amount)) = true.
Proof.
  intros Hh H0 Hq Ho. destruct (run_inv admin cs Hh) as [Hi _].
  pose proof (run_admin cs (gov_init admin)) as Ha. cbn [gov_init g_admin] in Ha.
  set (g := gov_run (gov_init admin) cs) in *. clearbody g. apply query_poll_ok in Hq.
  destruct Hi as (Hp & Hv & _). destruct (Hp _ _ Hq) as (_ & Hr & _).
  unfold gov_execute. rewrite Ha, N.eqb_refl. cbn [guard bind].
  rewrite (cast_vote_succeeds g e id o voter amount p); try assumption; try lia; [reflexivity|].
  intros v Ev. apply Hv in Ev. destruct Ev as (_ & _ & _ & Hlt & _). exact Hlt.
Qed.

Lemma inv_sum4 g id p :
  inv g -> oget (g_polls g) id = Some p -> lsum v_amount (recorded_votes g id) < M128 ->
  (forall k r, oget (p_results p) k = Some r -> k < 4) /\
  (forall o, votes_for p o = tally g id o) /\ sum4 p = lsum v_amount (recorded_votes g id).
Proof.
  intros Hi Hp Hb. pose proof Hi as (Hpi & _). destruct (Hpi _ _ Hp) as (_ & _ & _ & _ & Hk & Hs).
  assert (Hv : forall o, votes_for p o = tally g id o).
  { intros o. unfold votes_for. rewrite Hs, tally_vsum. apply N.mod_small. rewrite <- tally_vsum.
    eapply N.le_lt_trans; [apply tally_le|exact Hb]. }
  split; [intros k r E; apply Hk in E; tauto|]. split; [exact Hv|].
  unfold sum4. rewrite !Hv, recorded_total, (total_four g id Hi). reflexivity.
Qed.

Lemma verdict_is_the_rule admin cs e sender id avail err_if_ended early g' r p :
  history cs ->
  let g := gov_run (gov_init admin) cs in
  query_poll g id = Ok p ->
  gov_execute g e sender (GEndPoll id avail err_if_ended early) = Ok (g', r) ->
  lsum v_amount (recorded_votes g id) < 2 ^ 128 ->
  lsum v_amount (recorded_votes g id) * DEC / avail < 2 ^ 128 ->
  exists p', query_poll g' id = Ok p' /\
    verdict (p_quorum p) (p_threshold p) (dflt (p_threshold p) (p_veto_threshold p))
            (tally g id Yes) (tally g id No) (tally g id Abstain) (tally g id Veto) avail (p_status p').
Proof.
  intros Hh g Hq H Hb1 Hb2. destruct (run_inv admin cs Hh) as [Hi _]. fold g in Hi. clearbody g.
  apply query_poll_ok in Hq. apply gov_execute_ok in H. destruct H as [_ [H _]]. apply end_poll_ok in H.
  destruct H as (q & Hq' & -> & _). rewrite Hq in Hq'. inversion Hq'; subst q; clear Hq'.
  destruct (inv_sum4 g id p Hi Hq Hb1) as (Hk & Hv & Hs).
  exists (with_status p (final_status p avail)). split.
  - apply query_poll_ok. cbn. apply oget_oset_eq.
  - rewrite <- !Hv. cbn [with_status p_status]. apply final_status_verdict; [exact Hk|rewrite Hs; exact Hb1|rewrite Hs; exact Hb2].
Qed.

Lemma rule_functional q t v y n a ve av s1 s2 :
  verdict q t v y n a ve av s1 -> verdict q t v y n a ve av s2 -> s1 = s2.
Proof. apply verdict_functional. Qed.

Lemma turnout_fits total avail : total <= avail -> total * DEC / avail < 2 ^ 128.
Proof. apply ratio_le_one. Qed.

Lemma turnout_overflow p avail :
  avail <> 0 -> 2 ^ 128 <= total_votes p * DEC / avail -> p_quorum p <> 0 ->
  final_status p avail = Rejected QuorumNotReached.
Proof.
  intros Ha Ho Hq. unfold final_status, quorum_reached, ratio_or_zero, dec_checked_from_ratio.
  replace (avail =? 0) with false by lia. change (2 ^ 128) with M128 in Ho.
  replace (total_votes p * DEC / avail <? M128) with false by lia.
  replace (p_quorum p <=? 0) with false by lia. reflexivity.
Qed.

Lemma ended_stays_ended admin cs cs' id p :
  history (cs ++ cs') ->
  query_poll (gov_run (gov_init admin) cs) id = Ok p -> ended p ->
  exists p', query_poll (gov_run (gov_init admin) (cs ++ cs')) id = Ok p' /\ ended p'.
Proof.
  intros Hh Hq He. destruct (history_app _ _ Hh) as (Hh1 & Ht & Hlen). destruct (run_inv admin cs Hh1) as [Hi Hc].
  apply query_poll_ok in Hq. rewrite run_app.
  destruct (run_evolves cs' _ Hi Ht ltac:(lia) id p Hq) as (p' & Hp' & _ & Hf). exists p'.
  split; [apply query_poll_ok; exact Hp'|auto].
Qed.

Lemma terms_never_change admin cs cs' id p :
  history (cs ++ cs') ->
  query_poll (gov_run (gov_init admin) cs) id = Ok p ->
  exists p', query_poll (gov_run (gov_init admin) (cs ++ cs')) id = Ok p' /\ terms p' = terms p.
Proof.
  intros Hh Hq. destruct (history_app _ _ Hh) as (Hh1 & Ht & Hlen). destruct (run_inv admin cs Hh1) as [Hi Hc].
  apply query_poll_ok in Hq. rewrite run_app.
  destruct (run_evolves cs' _ Hi Ht ltac:(lia) id p Hq) as (p' & Hp' & Hf & _). exists p'.
  split; [apply query_poll_ok; exact Hp'|auto].
Qed.

Lemma strict_end_errors g e sender id avail early p :
  query_poll g id = Ok p -> ended p ->
  is_ok (gov_execute g e sender (GEndPoll id avail true early)) = false.
Proof.
  intros Hq He. destruct (gov_execute _ _ _ _) as [[g' r]|] eqn:E; [|reflexivity]. exfalso.
  apply gov_execute_ok in E. destruct E as [_ [E _]]. apply end_poll_ok in E. destruct E as (q & Hq' & _ & _ & Hs).
  apply query_poll_ok in Hq. rewrite Hq in Hq'. inversion Hq'; subst. apply He, Hs. reflexivity.
Qed.

Lemma end_ends g e sender id avail err_if_ended early g' r :
  gov_execute g e sender (GEndPoll id avail err_if_ended early) = Ok (g', r) ->
  (exists p p', query_poll g id = Ok p /\ query_poll g' id = Ok p' /\ ended p' /\ terms p' = terms p /\ p_results p' = p_results p) /\
  (forall id', id' <> id -> query_poll g' id' = query_poll g id') /\
  (forall id' voter, query_poll_voter g' id' voter = query_poll_voter g id' voter).
Proof.
  intros E. apply gov_execute_ok in E. destruct E as [_ [E _]]. apply end_poll_ok in E. destruct E as (q & Hq' & -> & _).
  split; [|split].
  - exists q. eexists. split; [apply query_poll_ok; exact Hq'|].
    split; [apply query_poll_ok; cbn; apply oget_oset_eq|]. split; [|split; reflexivity]. intros [t Ht]. cbn in Ht.
    eapply final_status_not_in_progress; exact Ht.
  - intros id' Hne. unfold query_poll. cbn. rewrite oget_oset_ne by congruence. reflexivity.
  - intros id' voter. apply query_voter_eq, get_vote_set_poll.
Qed.

(** polls are numbered 1..count *)
Lemma keys_consecutive {V} (m : omap V) n :
  (forall k v, oget m k = Some v -> 1 <= k <= n) -> (forall k, 1 <= k <= n -> exists v, oget m k = Some v) ->
  N.of_nat (length (elems m)) = n.
Proof.
  intros H1 H2.
  set (l := map N.of_nat (seq 1 (N.to_nat n))).
  assert (Hl : NoDup l).
  { unfold l. apply FinFun.Injective_map_NoDup; [intros a b; apply Nat2N.inj|apply seq_NoDup]. }
  assert (Hin : forall k, In k l <-> 1 <= k <= n).
  { intros k. unfold l. rewrite in_map_iff. split.
    - intros (x & <- & Hx). apply in_seq in Hx. lia.
    - intros Hk. exists (N.to_nat k). split; [apply N2Nat.id|]. apply in_seq. lia. }
  assert (E : length (okeys m) = length l).
  { apply Nat.le_antisymm; apply NoDup_incl_length; try assumption; try apply okeys_NoDup.
    - intros k Hk. apply okeys_In in Hk. destruct Hk as [v Hv]. apply Hin. eapply H1; eassumption.
    - intros k Hk. apply Hin in Hk. apply okeys_In. apply H2. assumption. }
  unfold okeys in E. rewrite map_length in E. rewrite E. unfold l. rewrite map_length, seq_length. lia.
Qed.

Lemma fresh_id admin cs e c g' r :
  history cs -> N.of_nat (length cs) + 1 < 2 ^ 64 ->
  let g := gov_run (gov_init admin) cs in
  gov_execute g e admin (GCreatePoll c) = Ok (g', r) ->
  exists id p, r = Some id /\ is_ok (query_poll g id) = false /\
    id = N.of_nat (length (elems (g_polls g))) + 1 /\
    query_poll g' id = Ok p /\ p_status p = InProgress (cp_ends_at c) /\
    terms p = (id, cp_proposer c, cp_deposit c, e_time e, cp_ends_at c, cp_quorum c, cp_threshold c, cp_veto_threshold c) /\
    e_time e < cp_ends_at c /\ cp_threshold c <= DEC /\
    (forall id' p', query_poll g id' = Ok p' -> query_poll g' id' = Ok p').
Proof.
  intros Hh Hlen g H. destruct (run_inv admin cs Hh) as [Hi Hc]. fold g in Hi, Hc. change (2 ^ 64) with M64 in Hlen.
  clearbody g. apply gov_execute_ok in H. destruct H as [_ (id & H & Hr)].
  pose proof Hi as (Hp & Hv & Hall & Hcm).
  assert (Hlt : g_count g + 1 < M64) by lia.
  assert (Ecount : N.of_nat (length (elems (g_polls g))) = g_count g).
  { apply keys_consecutive; [|exact Hall]. intros k v Hk. apply Hp in Hk. destruct Hk as (_ & Hk & _). exact Hk. }
  unfold create_poll in H. bind_inv H. unfold validate_create_poll in Hb. bind_inv Hb. apply guard_ok in Hb1.
  apply addr_validate_ok in Hb0. destruct Hb0 as [<- Hz].
  assert (Eid : u64_add (g_count g) 1 = g_count g + 1) by (unfold u64_add; apply N.mod_small; lia).
  rewrite Eid in H. inversion H; subst; clear H.
  assert (Hnone : forall p, oget (g_polls g) (g_count g + 1) <> Some p).
  { intros p Ep. apply Hp in Ep. destruct Ep as (_ & Ep & _). lia. }
  eexists (g_count g + 1), _. split; [reflexivity|]. split.
  { destruct (query_poll g (g_count g + 1)) eqn:E; [|reflexivity]. apply query_poll_ok in E. exfalso. eapply Hnone; eassumption. }
  split; [rewrite Ecount; reflexivity|]. split; [apply query_poll_ok; cbn; apply oget_oset_eq|].
  split; [reflexivity|]. split; [reflexivity|]. split; [lia|]. split; [lia|].
  intros id' p' Hq. apply query_poll_ok in Hq. apply query_poll_ok. cbn. rewrite oget_oset_ne; [exact Hq|].
  intros E. subst. eapply Hnone; eassumption.
Qed.

Lemma admin_only g e sender m : sender <> g_admin g -> gov_execute g e sender m = Err EUnauthorized.
Proof. intros H. unfold gov_execute. replace (sender =? g_admin g) with false by lia. reflexivity. Qed.

Lemma admin_constant admin cs : g_admin (gov_run (gov_init admin) cs) = admin.
Proof. apply run_admin. Qed.

Lemma early_end_needs_decision admin cs e sender id avail err_if_ended early g' r p :
  history cs ->
  let g := gov_run (gov_init admin) cs in
  query_poll g id = Ok p -> e_time e < p_ends_at p ->
  lsum v_amount (recorded_votes g id) < 2 ^ 128 ->
  lsum v_amount (recorded_votes g id) * DEC / avail < 2 ^ 128 ->
  gov_execute g e sender (GEndPoll id avail err_if_ended early) = Ok (g', r) ->
  let yes := tally g id Yes in let no := tally g id No in
  let abstain := tally g id Abstain in let veto := tally g id Veto in
  early = true /\
  reaches (yes + no + abstain + veto) avail (p_quorum p) /\
  (reaches veto (yes + no + veto) (dflt (p_threshold p) (p_veto_threshold p)) \/
   reaches yes (yes + no + veto) (p_threshold p) \/ reaches no (yes + no + veto) (p_threshold p)).
Proof.
  intros Hh g Hq Hn Hb1 Hb2 H yes no abstain veto.
  destruct (verdict_is_the_rule admin cs e sender id avail err_if_ended early g' r p Hh Hq H Hb1 Hb2) as (p' & Hp' & Hver).
  destruct (run_inv admin cs Hh) as [Hi _]. fold g in Hi, Hver, Hp'. clearbody g.
  apply query_poll_ok in Hq. apply gov_execute_ok in H. destruct H as [_ [H _]]. apply end_poll_ok in H.
  destruct H as (q & Hq' & -> & Hcond & _). rewrite Hq in Hq'. inversion Hq'; subst q; clear Hq'.
  destruct early; [|lia]. split; [reflexivity|].
  destruct (inv_sum4 g id p Hi Hq Hb1) as (Hk & Hv & Hs).
  destruct (early_end_conditions p (e_time e) avail Hk ltac:(rewrite Hs; exact Hb1) ltac:(rewrite Hs; exact Hb2) Hn Hcond) as [N1 N2].
  apply query_poll_ok in Hp'. cbn in Hp'. rewrite oget_oset_eq in Hp'. inversion Hp'; subst p'; clear Hp'.
  cbn [with_status p_status] in Hver. inversion Hver; try congruence; split; try assumption; auto.
Qed.

Lemma simulation_exact g e sender id avail err_if_ended early g' r :
  gov_execute g e sender (GEndPoll id avail err_if_ended early) = Ok (g', r) ->
  exists p', query_poll g' id = Ok p' /\ query_simulate g id avail = Ok (p_status p').
Proof.
  intros E. apply gov_execute_ok in E. destruct E as [_ [E _]]. apply end_poll_ok in E. destruct E as (q & Hq' & -> & _).
  eexists. split; [apply query_poll_ok; cbn; apply oget_oset_eq|].
  unfold query_simulate, query_poll. rewrite Hq'. reflexivity.
Qed.

Lemma update_untouched g e voter amount g' :
  inv g -> voter <> 0 -> update_votes g e voter amount = Ok g' ->
  forall id p, oget (g_polls g) id = Some p ->
    query_poll_voter g id voter = Ok None \/ ~ open_at p (e_time e) -> oget (g_polls g') id = Some p.
Proof.
  intros Hi H0 H id p Hp Hc. unfold update_votes in H. bind_inv H.
  destruct (query_voter_all g voter Hi H0) as (vs & Hq & _ & Hin). rewrite Hq in Hb. inversion Hb; subst; clear Hb.
  refine (fold_res_inv (fun s => oget (g_polls s) id = Some p) _ _ _ g g' Hp H).
  intros s v s' Hv Hs Hu. apply update_vote_ok in Hu. destruct Hu as [->|(o & _ & Hu)]; [exact Hs|].
  destruct (N.eq_dec id (v_poll v)) as [->|Hne].
  - exfalso. destruct Hc as [Hc|Hc].
    + apply query_voter_some in Hc. destruct Hc as [_ Hc]. apply Hin in Hv. congruence.
    + exact (cast_closed _ _ _ _ _ _ _ _ _ Hu Hs Hc eq_refl).
  - destruct (cast_other _ _ _ _ _ _ _ id Hu Hne) as [_ E]. congruence.
Qed.

Lemma weight_update admin cs e voter amount :
  history cs -> times_upto cs (e_time e) -> amount < 2 ^ 128 -> voter <> 0 ->
  let g := gov_run (gov_init admin) cs in
  exists g', gov_execute g e admin (GUpdateVotes voter amount) = Ok (g', None) /\
    only_counts_change g g' /\
    (forall id p, query_poll g id = Ok p ->
       query_poll_voter g id voter = Ok None \/ ~ open_at p (e_time e) -> query_poll g' id = Ok p) /\
    (forall voter' id, voter' <> voter -> query_poll_voter g' id voter' = query_poll_voter g id voter') /\
    (forall id, query_poll_voter g id voter = Ok None -> query_poll_voter g' id voter = Ok None) /\
    (forall id p v, query_poll g id = Ok p -> query_poll_voter g id voter = Ok (Some v) ->
       (open_at p (e_time e) -> query_poll_voter g' id voter = Ok (Some (mk_vote id voter (v_outcome v) amount))) /\
       (~ open_at p (e_time e) -> query_poll_voter g' id voter = Ok (Some v))).
Proof.
  intros Hh Ht Ha H0 g. destruct (run_inv admin cs Hh) as [Hi _].
  pose proof (started_run admin cs _ Ht) as Hst. pose proof (run_admin cs (gov_init admin)) as Had.
  cbn [gov_init g_admin] in Had. fold g in Hi, Hst, Had. clearbody g.
  destruct (update_votes_spec g e voter amount Hi Ha H0 Hst) as (g' & Hu & Ho & Hm).
  exists g'. unfold gov_execute. rewrite Had, N.eqb_refl. cbn [guard bind]. rewrite Hu. split; [reflexivity|].
  split; [exact (update_only_counts _ _ _ _ _ Hu)|].
  split; [intros id p Hq Hc; apply query_poll_ok in Hq; apply query_poll_ok; exact (update_untouched _ _ _ _ _ Hi H0 Hu id p Hq Hc)|].
  split; [intros; apply query_voter_eq, Ho; assumption|]. split.
  - intros id Hn. apply query_voter_some in Hn. destruct Hn as [_ Hn]. rewrite query_voter_intro by assumption.
    rewrite Hm, Hn. reflexivity.
  - intros id p v Hq Hv. apply query_voter_some in Hv. destruct Hv as [_ Hv]. apply query_poll_ok in Hq.
    rewrite query_voter_intro by assumption. rewrite Hm, Hv. unfold opened. rewrite Hq.
    destruct Hi as (Hp & Hvi & _). destruct (Hp _ _ Hq) as (_ & _ & Hs & _). destruct (Hvi _ _ _ Hv) as (Ev1 & Ev2 & _).
    split.
    + intros [[t Hs'] Hw]. unfold open_now. rewrite Hs'. rewrite (Hs _ Hs'). replace (e_time e <? p_ends_at p) with true by lia.
      unfold bumped. rewrite Ev1, Ev2. reflexivity.
    + intros Hno. unfold open_now. destruct (p_status p) eqn:Es; try reflexivity.
      destruct (e_time e <? ends_at) eqn:E; [|reflexivity]. exfalso. apply Hno. split; [eauto|].
      rewrite <- (Hs _ eq_refl). pose proof (Hst _ _ Hq). lia.
Qed.

(** Listings *)
Definition keys_inc {V} (l : list (N * V)) : Prop := ascending (map fst l).

Lemma sortedb_ascending {V} (l : list (N * V)) : sortedb l = true -> ascending (map fst l).
Proof.
  induction l as [|[k v] l IH]; intros H; [exact I|]. destruct l as [|[k' v'] l]; [exact I|].
  cbn [sortedb] in H. apply andb_true_iff in H. destruct H as [H1 H2]. split; [apply N.ltb_lt; exact H1|apply IH; exact H2].
Qed.

Lemma ascending_all l : forall a, ascending (a :: l) -> (forall b, In b l -> a < b) /\ ascending l.
Proof.
  induction l as [|b l IH]; intros a H; [split; [intros b []|exact I]|]. destruct H as [H1 H2]. split; [|exact H2].
  intros c [->|Hc]; [exact H1|]. apply IH in H2. destruct H2 as [H2 _]. apply H2 in Hc. lia.
Qed.

Lemma ascending_cons l a : (forall b, In b l -> a < b) -> ascending l -> ascending (a :: l).
Proof. intros H1 H2. destruct l as [|b l]; [exact I|]. split; [apply H1; left; reflexivity|exact H2]. Qed.

Lemma ascending_filter {V} (p : N * V -> bool) l : ascending (map fst l) -> ascending (map fst (filter p l)).
Proof.
  induction l as [|kv l IH]; intros H; [exact I|]. cbn [map] in H. apply ascending_all in H. destruct H as [H1 H2].
  cbn [filter]. destruct (p kv); [|apply IH; exact H2]. cbn [map]. apply ascending_cons; [|apply IH; exact H2].
  intros b Hb. apply H1. apply in_map_iff in Hb. destruct Hb as (x & <- & Hx). apply filter_In in Hx. apply in_map. tauto.
Qed.

Lemma listing_keys {V} (f : V -> N) (l : list (N * V)) : (forall k v, In (k, v) l -> f v = k) -> map f (map snd l) = map fst l.
Proof.
  induction l as [|[k v] l IH]; intros H; [reflexivity|]. cbn [map fst snd].
  rewrite (H k v) by (left; reflexivity). f_equal. apply IH. intros k' v' Hin. apply H. right. exact Hin.
Qed.

Lemma polls_listing admin cs filt lo hi :
  history cs ->
  let g := gov_run (gov_init admin) cs in
  let l := query_polls g filt lo hi None false in
  (forall p, In p l <->
     query_poll g (p_id p) = Ok p /\ in_range lo hi (p_id p) /\
     match filt with Some f => to_filter (p_status p) = f | None => True end) /\
  ascending (map p_id l) /\
  (forall limit, query_polls g filt lo hi limit false = match limit with Some n => firstn (N.to_nat n) l | None => l end) /\
  (forall limit, query_polls g filt lo hi limit true = match limit with Some n => firstn (N.to_nat n) (rev l) | None => rev l end).
Proof.
  intros Hh g l. destruct (run_inv admin cs Hh) as [(Hp & _) _]. fold g in Hp.
  assert (Hkey : forall k p, In (k, p) (elems (g_polls g)) -> p_id p = k).
  { intros k p Hin. apply oget_In in Hin. apply Hp in Hin. exact (proj1 Hin). }
  split; [|split; [|split]].
  - intros p. unfold l, query_polls. rewrite in_map_iff. split.
    + intros ([k q] & E & Hin). cbn in E. subst q. apply filter_In in Hin. destruct Hin as [Hin Hc].
      rewrite (Hkey _ _ Hin). split; [apply query_poll_ok, oget_In; exact Hin|]. cbn [fst snd] in Hc.
      rewrite !andb_true_iff in Hc. destruct Hc as [[Hc1 Hc2] Hc3]. split.
      * split; [destruct lo; [lia|exact I]|destruct hi; [lia|exact I]].
      * destruct filt as [f|]; [|exact I]. destruct (to_filter (p_status p)), f; try reflexivity; discriminate.
    + intros (Hq & [Hr1 Hr2] & Hf). exists (p_id p, p). split; [reflexivity|]. apply filter_In.
      apply query_poll_ok in Hq. split; [apply oget_In; exact Hq|]. cbn [fst snd]. rewrite !andb_true_iff. split; [split|].
      * destruct lo; [lia|reflexivity].
      * destruct hi; [lia|reflexivity].
      * destruct filt as [f|]; [|reflexivity]. rewrite <- Hf. destruct (to_filter (p_status p)); reflexivity.
  - unfold l, query_polls. rewrite listing_keys.
    + apply ascending_filter, sortedb_ascending, elems_ok.
    + intros k v Hin. apply filter_In in Hin. apply Hkey. tauto.
  - intros [n|]; reflexivity.
  - intros [n|]; reflexivity.
Qed.

(** * Concrete cases *)
Ltac typed := repeat (apply Forall_cons; [vm_compute; reflexivity|]); apply Forall_nil.
Ltac hist := split; [typed|vm_compute; reflexivity].

Lemma tally_wraps : exists admin cs id p o,
  history cs /\ query_poll (gov_run (gov_init admin) cs) id = Ok p /\
  ogetN (p_results p) (outcome_u8 o) <> tally (gov_run (gov_init admin) cs) id o.
Proof.
  exists ex_admin, [ex_call 10 ex_create; ex_call 20 (GCastVote 1 Yes 101 (2 ^ 127)); ex_call 20 (GCastVote 1 Yes 102 (2 ^ 127))], 1.
  eexists. exists Yes. split; [hist|]. split; [vm_compute; reflexivity|]. vm_compute. discriminate.
Qed.

Lemma ex_revote_tally :
  history ex_revote /\
  exists p, query_poll (ex_g ex_revote) 1 = Ok p /\ ogetN (p_results p) 1 = 55 /\
            lsum v_amount (recorded_votes (ex_g ex_revote) 1) = 60.
Proof. split; [hist|]. eexists. split; [vm_compute; reflexivity|]. split; vm_compute; reflexivity. Qed.

Lemma ex_revote_ok :
  exists g', gov_execute (ex_g ex_open) (mk_env 50 5) ex_admin (GCastVote 1 No 101 30) = Ok (g', None).
Proof. eexists. vm_compute. reflexivity. Qed.

Lemma ex_window :
  history (ex_open ++ [ex_call 1000 (GUpdateVotes 101 9)]) /\
  exists p, query_poll (ex_g ex_open) 1 = Ok p /\ ~ open_at p 1000 /\ open_at p 999.
Proof.
  split; [hist|]. eexists. split; [vm_compute; reflexivity|]. split.
  - intros [_ H]. cbn in H. lia.
  - split; [eexists; reflexivity|]. cbn. lia.
Qed.

Lemma threshold_of_available_refuted : exists admin cs id avail g' p',
  history cs /\
  gov_execute (gov_run (gov_init admin) cs) (mk_env 1000 100) admin (GEndPoll id avail false false) = Ok (g', None) /\
  query_poll g' id = Ok p' /\ (exists c, p_status p' = Passed 0 c) /\
  let g := gov_run (gov_init admin) cs in
  ~ reaches (tally g id Yes) (avail - tally g id Abstain) (p_threshold p').
Proof.
  exists ex_admin, ex_open, 1, 100. eexists. eexists. split; [hist|]. split; [vm_compute; reflexivity|].
  split; [vm_compute; reflexivity|]. split; [eexists; vm_compute; reflexivity|].
  vm_compute. intros [[_ H]|[H _]]; [apply H; reflexivity|discriminate].
Qed.

Lemma ex_verdict :
  history ex_open /\
  exists g' p', gov_execute (ex_g ex_open) (mk_env 1000 100) ex_admin (GEndPoll 1 100 false false) = Ok (g', None) /\
                query_poll g' 1 = Ok p' /\ p_status p' = Passed 0 40.
Proof. split; [hist|]. eexists. eexists. split; [vm_compute; reflexivity|]. split; vm_compute; reflexivity. Qed.

Lemma ex_ended_ended : history ex_ended /\ exists p, query_poll (ex_g ex_ended) 1 = Ok p /\ ended p.
Proof. split; [hist|]. eexists. split; [vm_compute; reflexivity|]. intros [t H]. vm_compute in H. discriminate. Qed.

Lemma ex_second_poll :
  history ex_ended /\
  exists g', gov_execute (ex_g ex_ended) (mk_env 1500 150) ex_admin
               (GCreatePoll (mk_create 50 0 2000 (pct 30) (pct 50) None)) = Ok (g', Some 2).
Proof. split; [hist|]. eexists. vm_compute. reflexivity. Qed.

Lemma ex_not_admin : 8 <> g_admin (ex_g ex_open).
Proof. vm_compute. discriminate. Qed.

Lemma early_verdict_refuted : exists admin cs later g1 p1 g2 p2,
  history (cs ++ later) /\
  lsum v_amount (recorded_votes (gov_run (gov_init admin) (cs ++ later)) 1) <= 100 /\
  gov_execute (gov_run (gov_init admin) cs) (mk_env 20 2) admin (GEndPoll 1 100 false true) = Ok (g1, None) /\
  query_poll g1 1 = Ok p1 /\ (exists c, p_status p1 = Passed 0 c) /\
  gov_execute (gov_run (gov_init admin) (cs ++ later)) (mk_env 1000 100) admin (GEndPoll 1 100 false true) = Ok (g2, None) /\
  query_poll g2 1 = Ok p2 /\ p_status p2 = Rejected IsRejectingOutcome.
Proof.
  exists ex_admin, ex_low_quorum, [ex_call 30 (GCastVote 1 No 102 80)].
  eexists. eexists. eexists. eexists. split; [hist|]. split; [vm_compute; discriminate|].
  split; [vm_compute; reflexivity|]. split; [vm_compute; reflexivity|]. split; [eexists; vm_compute; reflexivity|].
  split; [vm_compute; reflexivity|]. split; vm_compute; reflexivity.
Qed.

Lemma ex_simulate : query_simulate (ex_g ex_open) 1 100 = Ok (Passed 0 40).
Proof. vm_compute. reflexivity. Qed.

Lemma ex_update_ok :
  history ex_open /\ times_upto ex_open 50 /\
  query_poll_voter (ex_g ex_update) 1 101 = Ok (Some (mk_vote 1 101 0 60)).
Proof.
  split; [hist|]. split; [|vm_compute; reflexivity].
  cbn. repeat split; try (vm_compute; discriminate); repeat (apply Forall_cons; [vm_compute; discriminate|]); apply Forall_nil.
Qed.

Lemma ex_listing : map p_id (query_polls (ex_g ex_ended) (Some FPassed) None (Some 5) (Some 10) true) = [1] /\ history ex_ended.
Proof. split; [vm_compute; reflexivity|exact (proj1 ex_ended_ended)]. Qed.

Lemma verdict_rewritten : exists admin cs c g' p p' n,
  history (cs ++ [c]) /\ query_poll (gov_run (gov_init admin) cs) 1 = Ok p /\ p_status p = Passed 0 n /\
  e_time (gc_env c) = 5000 /\ gov_execute (gov_run (gov_init admin) cs) (gc_env c) admin (gc_msg c) = Ok (g', None) /\
  query_poll g' 1 = Ok p' /\ p_status p' = Rejected QuorumNotReached.
Proof.
  exists ex_admin, ex_ended, (mk_gcall (mk_env 5000 500) ex_admin (GEndPoll 1 100000 false false)). do 4 eexists.
  split; [split; [typed|vm_compute; reflexivity]|]. repeat (split; [vm_compute; reflexivity|]). vm_compute. reflexivity.
Qed.
