(** Recounting from delivered messages. *)
From Verif Require Import Base OMap OMapLemmas Assets PollModel PollSpec PollProofs FundsModel FundsSpec MemberModel MemberSpec MemberProofs MemberFacts Msgs
  ControllerModel ControllerSpec ControllerProofs ControllerFacts TreasuryModel EnterpriseModel OutpostsModel WorldModel WorldSpec WorldProofs WorldRun WorldFacts LiftSpec LiftProofs LiftFacts
  LiveSpec LiveResults EndSpec EndFacts PurseSpec BallotSpec BallotProofs BallotFacts RecountSpec.

Lemma entry_lget u l : entry u l = lget l u.
Proof.
  unfold entry. induction l as [|(k, v) l IH]; [reflexivity|]. cbn [find lget fst snd]. rewrite (N.eqb_sym k u). destruct (u =? k); [reflexivity|exact IH].
Qed.
Lemma entries_lsum u l : entries u l = lsum (fun p => if fst p =? u then snd p else 0) l.
Proof. unfold entries. rewrite lsum_filter. reflexivity. Qed.

Lemma add_claims_weights s a l s' : add_claims s a l = Ok s' -> st_members s' = st_members s.
Proof.
  unfold add_claims. intros H. allb. match goal with H : fold_res _ _ _ = Ok _ |- _ => revert H end. generalize 0 at 1. revert s.
  induction l as [|[[u k] r] t IH]; intros s n H; cbn [fold_res] in H; [inversion H; subst; auto|].
  apply bind_ok in H. destruct H as [[s2 t2] [H2 H]]. apply IH in H. unfold add_claim in H2. allb. exact H.
Qed.

Lemma common_weighs o s e sender m s' outs u :
  stake_execute o s e sender m = Ok (s', outs) ->
  ogetN (m_weights (st_members s')) u =
    match m with SUnstake k => if sender =? u then ogetN (m_weights (st_members s)) u - k else ogetN (m_weights (st_members s)) u
               | _ => ogetN (m_weights (st_members s)) u end.
Proof.
  intros H1. destruct m; cbn [stake_execute] in H1.
  - apply unstake_ok in H1. destruct H1 as [r [_ [-> _]]]. cbn. rewrite ogetN_oset.
    destruct (N.eqb_spec sender u) as [->|_]; reflexivity.
  - unfold claim_stake in H1. allb. reflexivity.
  - allb. unfold update_period in *. allb. destruct p; reflexivity.
  - allb. unfold add_hook in *. allb. reflexivity.
  - allb. unfold remove_hook in *. allb. reflexivity.
Qed.

(** Every accepted call changes weights just like that. *)
Lemma call_weighs o st e s coins m st' outs u :
  member_execute o st e s coins m = Ok (st', outs) -> weight_of st' u = weighs_after u s m coins (weight_of st u).
Proof.
  intros H. destruct st as [q|q|q|q], m as [x|x|x|x]; cbn [member_execute] in H; try discriminate;
    apply bind_ok in H; destruct H as [[s1 o1] [H1 H]]; inversion H; subst; clear H; unfold weight_of; cbn [members_of weighs_after].
  - destruct x as [k h|x]; cbn [token_execute] in H1.
    + unfold token_receive in H1. apply bind_ok in H1. destruct H1 as [? [_ H]]. destruct h as [v|l|l|].
      * apply stake_token_ok in H. destruct H as [_ [_ H]]. destruct (add_stake_weight _ _ _ _ _ _ u H) as [_ E]. rewrite E. destruct (v =? u); lia.
      * apply add_stakes_ok in H. destruct H as [m [ch [Hl [-> _]]]]. apply add_stakes_loop in Hl.
        destruct Hl as [w [more [-> [_ [_ [_ [_ [_ Hw]]]]]]]]. rewrite entries_lsum. cbn. apply Hw.
      * allb. match goal with H : add_claims _ _ _ = Ok _ |- _ => apply add_claims_weights in H; rewrite H end. reflexivity.
      * discriminate.
    + rewrite (common_weighs _ _ _ _ _ _ _ u H1). destruct x; reflexivity.
  - destruct x as [v|x]; cbn [denom_execute] in H1.
    + apply stake_denom_ok in H1. destruct H1 as [d [a [-> [_ [_ [_ H]]]]]]. destruct (add_stake_weight _ _ _ _ _ _ u H) as [_ E]. rewrite E.
      assert (Z : lsum snd [(d, a)] = a) by (cbn; lia). rewrite Z. change (match v with Some v0 => v0 | None => s end) with (dflt s v). destruct (dflt s v =? u); lia.
    + rewrite (common_weighs _ _ _ _ _ _ _ u H1). destruct x; reflexivity.
  - destruct x as [t h|ts|v|p|h|h]; cbn [nft_execute] in H1.
    + apply receive_nft_ok in H1. destruct H1 as [_ H]. pose proof (resolved_fields q o s) as [F1 _]. destruct h as [v|v r|]; [| |contradiction].
      * apply stake_nft_ok in H. destruct H as [-> _]. cbn. rewrite F1, ogetN_oset. unfold member_weight. destruct (N.eqb_spec v u) as [->|_]; reflexivity.
      * destruct H as [_ [H _]]. unfold add_nft_claim in H. allb. cbn. rewrite F1. reflexivity.
    + apply unstake_nft_ok in H1. destruct H1 as [r [stk [_ [_ [-> _]]]]]. cbn. rewrite ogetN_oset. unfold member_weight. destruct (N.eqb_spec s u) as [->|_]; reflexivity.
    + unfold claim_nft in H1. allb. reflexivity.
    + allb. unfold nft_update_period in *. allb. destruct p; reflexivity.
    + allb. unfold add_hook in *. allb. reflexivity.
    + allb. unfold remove_hook in *. allb. reflexivity.
  - destruct x as [l|l|h|h]; cbn [multisig_execute] in H1.
    + apply update_members_ok in H1. destruct H1 as [_ [_ [w [t [ch [-> [_ [_ [_ Hw]]]]]]]]]. rewrite entry_lget. cbn. unfold ogetN. rewrite Hw. destruct (lget l u); reflexivity.
    + apply set_members_ok in H1. destruct H1 as [_ [_ [w [-> [_ Hw]]]]]. rewrite entry_lget. cbn. unfold ogetN. rewrite Hw. destruct (lget l u); reflexivity.
    + allb. unfold add_hook in *. allb. reflexivity.
    + allb. unfold remove_hook in *. allb. reflexivity.
Qed.

Definition weighs_call (u : addr) (n : N) (c : addr * wasm_msg * list coin) : N :=
  match c with (s, ToMembership m, coins) => weighs_after u s m coins n | _ => n end.

Lemma recount_calls a u n l : recount a u n l = fold_left (weighs_call u) (flat_map (seen_by a) (rev l)) n.
Proof.
  unfold recount. rewrite <- (rev_involutive l) at 1. generalize (rev l). clear l. intros l. rewrite fold_left_rev_right.
  revert n. induction l as [|x l IH]; intros n; [reflexivity|]. cbn [fold_left flat_map]. rewrite fold_left_app, <- IH. f_equal.
  unfold reweigh, seen_by. destruct x as (s, m). cbn [fst snd]. destruct m as [|to wm coins| | | | |]; try reflexivity. destruct (to =? a); [|destruct wm; reflexivity].
  cbn [fold_left weighs_call]. destruct wm; reflexivity.
Qed.

Section Recount.
Context {X : Type}.
Variable Out : outside X.
Variable A : addrs.
Hypothesis HA : NoDup (dao_addrs A).

Lemma unseen {T} (to a : addr) (x : list T) : to <> a -> (if to =? a then x else []) = [].
Proof. intros H. apply N.eqb_neq in H. unfold addr in *. rewrite H. reflexivity. Qed.

Lemma member_recounted u ts w : exists l, w_log (world_run Out A w ts) = l ++ w_log w /\
  weight_of (w_member (world_run Out A w ts)) u = recount (a_membership A) u (weight_of (w_member w) u) l.
Proof.
  destruct (run_passes Out A N (addr * wasm_msg * list coin) (addr * wasm_msg * list coin) (fun w => weight_of (w_member w) u) (weighs_call u) (a_membership A)
    (fun x => x) (fun c => [c]) (fun c e => True)) with (ts := ts) (w := w) as (l & css & H1 & _ & H3 & H4).
  - intros n w0 e s to m coins w1 subs d H. apply (handle_all Out A) in H.
    assert (Q : to = a_membership A /\ others_same w0 w1 2 /\ (exists mm outs, m = ToMembership mm /\
        member_execute (member_oracle_of Out A w0 (w_member w0)) (w_member w0) e s coins mm = Ok (w_member w1, outs)) \/
      to <> a_membership A /\ w_member w1 = w_member w0).
    { pose proof (apart A HA) as HP. decompose [and] HP. clear HP.
      destruct H as [(-> & HS & _)|[(-> & HS & _)|[(-> & HS & Q)|[(-> & HS & _)|[(-> & HS & _)|[(-> & HS & _)|[(-> & HS & _)|[(-> & HS & _)|(HI & HS)]]]]]]]];
        try (right; split; [auto|exact (same_member _ _ _ HS ltac:(discriminate))]); auto.
      intros ->. apply HI. unfold dao_addrs. cbn [In]. tauto. }
    destruct Q as [(-> & _ & mm & outs & -> & Q)|(Q1 & Q2)].
    + exists [(s, ToMembership mm, coins)]. rewrite N.eqb_refl. split; [|split; [reflexivity|repeat constructor]].
      cbn [fold_left weighs_call]. eapply call_weighs. exact Q.
    + exists []. rewrite Q2, unseen by exact Q1. repeat split. constructor.
  - intros w0 e self id r w1 more H. exists []. split; [|split; [reflexivity|constructor]]. apply (reply_all Out A) in H. cbn [fold_left].
    destruct H as [(HS & _)|[(HS & _)|HS]]; rewrite (same_member _ _ _ HS ltac:(discriminate)); reflexivity.
  - intros w0 e s m w1 d H. apply (other_all Out A) in H. rewrite (same_member _ _ _ H ltac:(discriminate)). reflexivity.
  - reflexivity.
  - reflexivity.
  - exists l. split; [exact H1|]. rewrite H3. rewrite recount_calls. rewrite map_id in H4. rewrite <- H4. f_equal.
    clear. induction (concat css) as [|c cs IH]; [reflexivity|]. cbn [flat_map app]. rewrite <- IH. reflexivity.
Qed.

Lemma council_recounted u ts w : exists l, w_log (world_run Out A w ts) = l ++ w_log w /\
  weight_of (w_council (world_run Out A w ts)) u = recount (a_council A) u (weight_of (w_council w) u) l.
Proof.
  destruct (run_passes Out A N (addr * wasm_msg * list coin) (addr * wasm_msg * list coin) (fun w => weight_of (w_council w) u) (weighs_call u) (a_council A)
    (fun x => x) (fun c => [c]) (fun c e => True)) with (ts := ts) (w := w) as (l & css & H1 & _ & H3 & H4).
  - intros n w0 e s to m coins w1 subs d H. apply (handle_all Out A) in H.
    assert (Q : to = a_council A /\ others_same w0 w1 3 /\ (exists mm outs, m = ToMembership mm /\
        member_execute (member_oracle_of Out A w0 (w_council w0)) (w_council w0) e s coins mm = Ok (w_council w1, outs)) \/
      to <> a_council A /\ w_council w1 = w_council w0).
    { pose proof (apart A HA) as HP. decompose [and] HP. clear HP.
      destruct H as [(-> & HS & _)|[(-> & HS & _)|[(-> & HS & _)|[(-> & HS & Q)|[(-> & HS & _)|[(-> & HS & _)|[(-> & HS & _)|[(-> & HS & _)|(HI & HS)]]]]]]]];
        try (right; split; [auto|exact (same_council _ _ _ HS ltac:(discriminate))]); auto.
      intros ->. apply HI. unfold dao_addrs. cbn [In]. tauto. }
    destruct Q as [(-> & _ & mm & outs & -> & Q)|(Q1 & Q2)].
    + exists [(s, ToMembership mm, coins)]. rewrite N.eqb_refl. split; [|split; [reflexivity|repeat constructor]].
      cbn [fold_left weighs_call]. eapply call_weighs. exact Q.
    + exists []. rewrite Q2, unseen by exact Q1. repeat split. constructor.
  - intros w0 e self id r w1 more H. exists []. split; [|split; [reflexivity|constructor]]. apply (reply_all Out A) in H. cbn [fold_left].
    destruct H as [(HS & _)|[(HS & _)|HS]]; rewrite (same_council _ _ _ HS ltac:(discriminate)); reflexivity.
  - intros w0 e s m w1 d H. apply (other_all Out A) in H. rewrite (same_council _ _ _ H ltac:(discriminate)). reflexivity.
  - reflexivity.
  - reflexivity.
  - exists l. split; [exact H1|]. rewrite H3. rewrite recount_calls. rewrite map_id in H4. rewrite <- H4. f_equal.
    clear. induction (concat css) as [|c cs IH]; [reflexivity|]. cbn [flat_map app]. rewrite <- IH. reflexivity.
Qed.
End Recount.

Lemma weights_recounted X (Out : outside X) A w0 before later u :
  new_dao A w0 -> let w := world_run Out A w0 before in let w' := world_run Out A w later in
  exists l, w_log w' = l ++ w_log w /\
    weight_of (w_member w') u = recount (a_membership A) u (weight_of (w_member w) u) l /\
    weight_of (w_council w') u = recount (a_council A) u (weight_of (w_council w) u) l.
Proof.
  intros HN w w'. destruct (member_recounted Out A (nd_addrs _ _ HN) u later w) as (l & H1 & H2).
  destruct (council_recounted Out A (nd_addrs _ _ HN) u later w) as (l' & H3 & H4). fold w' in H1, H2, H3, H4.
  assert (l' = l) as -> by (rewrite H1 in H3; apply app_inv_tail in H3; auto). eauto.
Qed.

Lemma member_weight_public X (Out : outside X) A w0 ts w u :
  new_dao A w0 -> w = world_run Out A w0 ts ->
  weight_of (w_member w) u = recount (a_membership A) u (weight_of (w_member w0) u) (w_log w) /\
  weight_of (w_council w) u = recount (a_council A) u (weight_of (w_council w0) u) (w_log w).
Proof.
  intros HN ->. destruct (weights_recounted X Out A w0 [] ts u HN) as (l & H1 & H2 & H3). cbn [world_run fold_left] in *.
  rewrite (nd_log _ _ HN), app_nil_r in H1. subst l. auto.
Qed.

Lemma roll_total (m : members) us : sum_ok m -> NoDup us -> (forall u, ogetN (m_weights m) u <> 0 -> In u us) -> total_weight m = lsum (ogetN (m_weights m)) us.
Proof.
  intros [Hs _] Hn Hc. rewrite Hs. apply N.le_antisymm; [|apply distinct_sum; exact Hn].
  unfold osum. set (W := m_weights m) in *.
  transitivity (lsum (ogetN W) (filter (fun u => negb (ogetN W u =? 0)) (okeys W))).
  - rewrite lsum_filter. unfold okeys. rewrite lsum_map. apply N.eq_le_incl. apply lsum_ext_in. intros (u, x) Hi. cbn [fst snd].
    assert (E : ogetN W u = x) by (unfold ogetN; apply oget_In in Hi; rewrite Hi; reflexivity). rewrite E. destruct (N.eqb_spec x 0); cbn [negb]; auto.
  - assert (P : forall ks us, NoDup ks -> incl ks us -> lsum (ogetN W) ks <= lsum (ogetN W) us).
    { clear. induction ks as [|k ks IH]; intros us Hn Hi; [cbn; lia|]. inversion Hn; subst.
      destruct (in_split k us (Hi k (or_introl eq_refl))) as (u1 & u2 & ->). rewrite lsum_app, !lsum_cons.
      specialize (IH (u1 ++ u2) H2). rewrite lsum_app in IH. enough (incl ks (u1 ++ u2)) by (specialize (IH H); lia).
      intros x Hx. specialize (Hi x (or_intror Hx)). apply in_app_iff in Hi. apply in_app_iff. destruct Hi as [Hi|[->|Hi]]; auto. contradiction. }
    apply P; [apply NoDup_filter, okeys_NoDup|]. intros u Hu. apply filter_In in Hu. destruct Hu as [_ Hu]. apply Hc. destruct (N.eqb_spec (ogetN W u) 0); [discriminate|assumption].
Qed.

Lemma votes_recounted X (Out : outside X) A w0 ts w now id pl o :
  new_dao A w0 -> w = world_run Out A w0 ts -> timely 0 ts -> lasting w -> calm A w -> last_time ts <= now ->
  open_poll w General id now -> oget (g_polls (w_gov w)) id = Some pl ->
  ogetN (p_results pl) (outcome_u8 o) = votes_for A (weight_of (w_member w0)) (w_log w) id o.
Proof.
  intros HN E HT HL HC Hb HO Hpl. destruct (support_counted X Out A w0 ts w now id pl o HN E HT HL HC Hb HO Hpl) as (_ & ->).
  unfold support, votes_for. apply lsum_ext_in. intros u _. exact (proj1 (member_weight_public X Out A w0 ts w u HN E)).
Qed.

Lemma outcome_recounted X (Out : outside X) A birth w0 before later id ends pl pl' us :
  new_dao A w0 -> created_by birth (w_member w0) -> created_by birth (w_council w0) -> timely birth (before ++ later) ->
  let w := world_run Out A w0 before in let w' := world_run Out A w0 (before ++ later) in
  lasting w -> lasting w' -> calm A w' ->
  closing w General id ends -> oget (g_polls (w_gov w)) id = Some pl -> seconds_before ends before -> all_after ends later ->
  oget (g_polls (w_gov w')) id = Some pl' -> p_status pl' <> InProgress ends ->
  let first := weight_of (w_member w0) in let said := w_log w in roll A first said us ->
  verdict (p_quorum pl) (p_threshold pl) (match p_veto_threshold pl with Some v => v | None => p_threshold pl end)
    (votes_for A first said id Yes) (votes_for A first said id No) (votes_for A first said id Abstain) (votes_for A first said id Veto)
    (all_votes A first said us) (p_status pl').
Proof.
  intros HN B1 B2 HT w w' HLw HL HC HCl Hpl HB HAf Hpl' HE first said (Hn & Hr).
  pose proof (ballots_decide X Out A birth w0 before later id ends pl pl' HN B1 B2 HT HLw HL HC HCl Hpl HB HAf Hpl' HE) as V. cbv zeta in V. fold w in V.
  assert (P : forall u, weight_of (w_member w) u = recount (a_membership A) u (first u) said) by (intros u; exact (proj1 (member_weight_public X Out A w0 before w u HN eq_refl))).
  assert (S : forall o, support A w id o = votes_for A first said id o) by (intros o; apply lsum_ext_in; intros u _; apply P).
  rewrite !S in V. replace (all_votes A first said us) with (weight_now w General); [exact V|].
  unfold weight_now, total_now, all_votes. cbn [query_total_weight].
  rewrite <- (lsum_ext_in (weight_of (w_member w))) by (intros u _; apply P).
  apply roll_total; [|exact Hn|intros u Hu; apply Hr; rewrite <- P; exact Hu].
  assert (HT0 : timely birth before) by (destruct (timely_app _ _ _ HT) as (T1 & _); exact T1).
  assert (HCw : calm A w).
  { assert (HC1 := HC). assert (HL1 := HL). unfold w' in HC1, HL1. rewrite run_app in HC1, HL1. destruct HL1 as (_ & L2). fold w in HC1, L2.
    pose proof (run_size Out A later w) as S1. assert (SW : size w < M64) by apply HLw.
    destruct (run_ahead Out A (nd_addrs _ _ HN) before w0 (new_wired _ _ HN) SW) as (HW & _). fold w in HW.
    destruct (run_ahead Out A (nd_addrs _ _ HN) later _ HW L2) as (_ & AH & _). exact (calm_back _ _ _ AH HC1). }
  destruct (run_facts X Out A w0 before HN (timely_0 _ _ HT0) HLw HCw) as (K & _). destruct (c_small _ _ _ K) as (Hi & _). apply Hi.
Qed.

Definition is_multisig_msg (c : addr * wasm_msg * list coin) : bool := match c with (_, ToMembership (MultisigMsg _), _) => true | _ => false end.
Definition multisig_state (st : member_state) : bool := match st with MMultisig _ => true | _ => false end.
Definition step_kept (u : addr) (p : bool * N) (c : addr * wasm_msg * list coin) : bool * N :=
  (fst p, if negb (fst p) && is_multisig_msg c then snd p else weighs_call u (snd p) c).
Definition taken (u : addr) (c : addr * wasm_msg * list coin) : N :=
  match c with
  | (s, ToMembership (TokenMsg (TCommon (SUnstake k))), _) | (s, ToMembership (DenomMsg (DCommon (SUnstake k))), _) => if s =? u then k else 0
  | (s, ToMembership (NftMsg (NUnstake ts)), _) => if s =? u then N.of_nat (length ts) else 0
  | _ => 0
  end.

Lemma kind_kept o st e s coins m st' outs : member_execute o st e s coins m = Ok (st', outs) ->
  multisig_state st' = multisig_state st /\ (multisig_state st = false -> is_multisig_msg (s, ToMembership m, coins) = false).
Proof.
  intros H. destruct st, m; cbn [member_execute] in H; try discriminate; apply bind_ok in H; destruct H as [[s1 o1] [H1 H]]; inversion H; subst; cbn; auto.
Qed.

Lemma taken_calls a u l : lsum (takes_out a u) l = lsum (taken u) (flat_map (seen_by a) (rev l)).
Proof.
  induction l as [|x l IH]; [reflexivity|]. rewrite lsum_cons, IH. cbn [rev]. rewrite flat_map_app, lsum_app. rewrite N.add_comm. f_equal.
  cbn [flat_map]. rewrite app_nil_r. unfold takes_out, seen_by. destruct x as (s, m). cbn [fst snd]. destruct m as [|to wm coins| | | | |]; try reflexivity.
  destruct (to =? a); cbn [andb].
  - rewrite lsum_cons. change (lsum (taken u) []) with 0. rewrite N.add_0_r. cbn [taken]. reflexivity.
  - change (lsum (taken u) []) with 0. destruct wm as [| |mm| | | | | | | | | |]; try reflexivity. destruct mm as [[|[]]|[|[]]|[]|]; reflexivity.
Qed.

Lemma kept_loses u cs : forall n, n <= snd (fold_left (step_kept u) cs (false, n)) + lsum (taken u) cs.
Proof.
  induction cs as [|c cs IH]; intros n; [cbn; lia|]. cbn [fold_left]. rewrite lsum_cons. unfold step_kept at 2. cbn [fst snd negb andb].
  set (n' := if is_multisig_msg c then n else weighs_call u n c). specialize (IH n').
  enough (n <= n' + taken u c) by lia. unfold n'. destruct c as ((s, wm), coins). destruct wm as [| |mm| | | | | | | | | |]; cbn [is_multisig_msg weighs_call taken]; try lia.
  destruct mm as [[k [v|l|l|]|[k| | | |]]|[v|[k| | | |]]|[t [v|v r|]|ts| | | |]|]; cbn [weighs_after]; try lia;
    repeat match goal with |- context [if ?b then _ else _] => destruct b end; lia.
Qed.

Lemma member_kept {X} (Out : outside X) A (HA : NoDup (dao_addrs A)) u ts w : multisig_state (w_member w) = false ->
  exists l, w_log (world_run Out A w ts) = l ++ w_log w /\
  weight_of (w_member w) u <= weight_of (w_member (world_run Out A w ts)) u + lsum (takes_out (a_membership A) u) l /\
  multisig_state (w_member (world_run Out A w ts)) = false.
Proof.
  intros HM.
  destruct (run_passes Out A (bool * N) (addr * wasm_msg * list coin) (addr * wasm_msg * list coin)
    (fun w => (multisig_state (w_member w), weight_of (w_member w) u)) (step_kept u) (a_membership A)
    (fun x => x) (fun c => [c]) (fun c e => True)) with (ts := ts) (w := w) as (l & css & H1 & _ & H3 & H4).
  - intros n w0 e s to m coins w1 subs d H. apply (handle_all Out A) in H.
    assert (Q : to = a_membership A /\ others_same w0 w1 2 /\ (exists mm outs, m = ToMembership mm /\
        member_execute (member_oracle_of Out A w0 (w_member w0)) (w_member w0) e s coins mm = Ok (w_member w1, outs)) \/
      to <> a_membership A /\ w_member w1 = w_member w0).
    { pose proof (apart A HA) as HP. decompose [and] HP. clear HP.
      destruct H as [(-> & HS & _)|[(-> & HS & _)|[(-> & HS & Q)|[(-> & HS & _)|[(-> & HS & _)|[(-> & HS & _)|[(-> & HS & _)|[(-> & HS & _)|(HI & HS)]]]]]]]];
        try (right; split; [auto|exact (same_member _ _ _ HS ltac:(discriminate))]); auto.
      intros ->. apply HI. unfold dao_addrs. cbn [In]. tauto. }
    destruct Q as [(-> & _ & mm & outs & -> & Q)|(Q1 & Q2)].
    + exists [(s, ToMembership mm, coins)]. rewrite N.eqb_refl. split; [|split; [reflexivity|repeat constructor]].
      pose proof (kind_kept _ _ _ _ _ _ _ _ Q) as (K1 & K2). rewrite K1, (call_weighs _ _ _ _ _ _ _ _ u Q). cbn [fold_left]. unfold step_kept. cbn [fst snd weighs_call].
      destruct (multisig_state (w_member w0)); cbn [negb andb]; [reflexivity|]. rewrite K2 by reflexivity. reflexivity.
    + exists []. rewrite Q2, unseen by exact Q1. repeat split. constructor.
  - intros w0 e self id r w1 more H. exists []. split; [|split; [reflexivity|constructor]]. apply (reply_all Out A) in H. cbn [fold_left].
    destruct H as [(HS & _)|[(HS & _)|HS]]; rewrite (same_member _ _ _ HS ltac:(discriminate)); reflexivity.
  - intros w0 e s m w1 d H. apply (other_all Out A) in H. rewrite (same_member _ _ _ H ltac:(discriminate)). reflexivity.
  - reflexivity.
  - reflexivity.
  - exists l. split; [exact H1|]. rewrite taken_calls. rewrite map_id in H4. rewrite <- H4.
    assert (E : flat_map (fun c : addr * wasm_msg * list coin => [c]) (concat css) = concat css).
    { clear. induction (concat css) as [|c cs IH]; [reflexivity|]. cbn [flat_map app]. rewrite IH. reflexivity. }
    rewrite E. rewrite HM in H3. pose proof (kept_loses u (concat css) (weight_of (w_member w) u)) as L. rewrite <- H3 in L. cbn [snd] in L. split; [exact L|].
    assert (F : forall cs p, fst (fold_left (step_kept u) cs p) = fst p) by (clear; induction cs as [|c cs IH]; intros p; [reflexivity|]; cbn [fold_left]; rewrite IH; reflexivity).
    specialize (F (concat css) (false, weight_of (w_member w) u)). rewrite <- H3 in F. exact F.
Qed.

Lemma losses_are_own X (Out : outside X) A w0 before later u :
  new_dao A w0 -> (forall m, w_member w0 <> MMultisig m) ->
  let w := world_run Out A w0 before in let w' := world_run Out A w later in
  exists l, w_log w' = l ++ w_log w /\ weight_of (w_member w) u <= weight_of (w_member w') u + lsum (takes_out (a_membership A) u) l.
Proof.
  intros HN HM w w'. assert (M0 : multisig_state (w_member w0) = false) by (destruct (w_member w0); auto; destruct (HM m eq_refl)).
  destruct (member_kept Out A (nd_addrs _ _ HN) u before w0 M0) as (_ & _ & _ & M1).
  destruct (member_kept Out A (nd_addrs _ _ HN) u later w M1) as (l & H1 & H2 & _). eauto.
Qed.

Lemma same_record X Y (Out : outside X) (Out' : outside Y) A (w0 w : world X) (v0 v : world Y) id pl pl' ql ql' :
  held Out A w0 w id pl pl' -> held Out' A v0 v id ql ql' ->
  (forall u, weight_of (w_member w0) u = weight_of (w_member v0) u) -> w_log w = w_log v -> same_rules pl ql ->
  p_status pl' = p_status ql'.
Proof.
  intros [N1 P1 (b1 & bf1 & lt1 & e1 & E1 & C1 & D1 & T1 & L1 & L1' & K1 & O1 & S1 & F1 & Q1 & G1)]
         [N2 P2 (b2 & bf2 & lt2 & e2 & E2 & C2 & D2 & T2 & L2 & L2' & K2 & O2 & S2 & F2 & Q2 & G2)] HW HL (R1 & R2 & R3).
  set (us := okeys (m_weights (members_of (w_member w)))).
  assert (U1 : roll A (weight_of (w_member w0)) (w_log w) us).
  { split; [apply okeys_NoDup|]. intros u Hu. rewrite <- (proj1 (member_weight_public X Out A w0 bf1 w u N1 E1)) in Hu. unfold us. apply okeys_In.
    unfold weight_of, ogetN in Hu. destruct (oget _ u) as [x|]; [eauto|destruct (Hu eq_refl)]. }
  assert (EX : forall l u, recount (a_membership A) u (weight_of (w_member v0) u) l = recount (a_membership A) u (weight_of (w_member w0) u) l) by (intros l u; rewrite HW; reflexivity).
  assert (U2 : roll A (weight_of (w_member v0)) (w_log v) us).
  { destruct U1 as (A1 & A2). split; [exact A1|]. intros u Hu. apply A2. rewrite EX, <- HL in Hu. exact Hu. }
  assert (VF : forall o, votes_for A (weight_of (w_member v0)) (w_log v) id o = votes_for A (weight_of (w_member w0)) (w_log w) id o)
    by (intros o; unfold votes_for; rewrite <- HL; apply lsum_ext_in; intros u _; apply EX).
  assert (AV : all_votes A (weight_of (w_member v0)) (w_log v) us = all_votes A (weight_of (w_member w0)) (w_log w) us)
    by (unfold all_votes; rewrite <- HL; apply lsum_ext_in; intros u _; apply EX).
  clear EX. subst w v.
  pose proof (outcome_recounted X Out A b1 w0 bf1 lt1 id e1 pl pl' us N1 C1 D1 T1 L1 L1' K1 O1 P1 S1 F1 Q1 G1 U1) as V1.
  pose proof (outcome_recounted Y Out' A b2 v0 bf2 lt2 id e2 ql ql' us N2 C2 D2 T2 L2 L2' K2 O2 P2 S2 F2 Q2 G2 U2) as V2.
  cbv zeta in V1, V2. rewrite <- R1, <- R2, <- R3, !VF, AV in V2. eapply verdict_functional; eassumption.
Qed.
