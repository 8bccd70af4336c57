(** The membership properties. *)
From Verif Require Import Base OMap OMapLemmas Assets MemberModel MemberSpec MemberProofs.

(** * C19 *)

Lemma lsum_cover us : forall (m : omap N), NoDup us -> (forall u, ogetN m u <> 0 -> In u us) ->
  lsum (ogetN m) us = osum (fun _ w => w) m.
Proof.
  induction us as [|u t IH]; intros m Hn Hc.
  - symmetry. apply lsum_zero. intros [k w] Hi. cbn. apply oget_In in Hi.
    destruct (N.eq_dec w 0) as [|Hw]; [assumption|]. exfalso. apply (Hc k). unfold ogetN. rewrite Hi. exact Hw.
  - inversion Hn; subst. rewrite lsum_cons. pose proof (osum_odel (fun _ w : N => w) m u) as Ho. cbv beta in Ho. rewrite oval_ogetN in Ho.
    assert (E : lsum (ogetN m) t = lsum (ogetN (odel m u)) t).
    { apply lsum_ext_in. intros a Ha. rewrite ogetN_odel. destruct (u =? a) eqn:E; [apply N.eqb_eq in E; subst; contradiction|reflexivity]. }
    rewrite E, IH; [lia|assumption|].
    intros a Ha. rewrite ogetN_odel in Ha. destruct (u =? a) eqn:Eu; [lia|]. apply N.eqb_neq in Eu.
    destruct (Hc a Ha); [congruence|assumption].
Qed.

Lemma total_is_sum st us :
  member_reachable st -> NoDup us -> (forall u, weight_of st u <> 0 -> In u us) ->
  total_now st = lsum (weight_of st) us.
Proof.
  intros Hr Hn Hc. apply reachable_inv in Hr. destruct Hr as [[Ht _] _].
  unfold total_now, query_total_weight. rewrite Ht. symmetry. apply (lsum_cover us (m_weights (members_of st))); assumption.
Qed.

Lemma weight_query st u : u <> 0 -> query_user_weight (members_of st) u = Ok (weight_of st u).
Proof. intros H. unfold query_user_weight, addr_validate. apply N.eqb_neq in H. rewrite H. reflexivity. Qed.

(** * C20 *)

Section History.
Variable proj : members -> snap.
Variable key : env -> N.
Hypothesis proj_save : forall m e t, proj (save_total_weight m e t) = snap_save (proj m) t (key e).
Hypothesis proj_same : forall m m', m_total_height m' = m_total_height m -> m_total_seconds m' = m_total_seconds m -> proj m' = proj m.

Let ckey (c : member_call) : N := key (mc_env c).

Lemma rising_ge cs : forall b c, rising ckey b cs -> In c cs -> b <= ckey c.
Proof.
  induction cs as [|c0 t IH]; intros b c Hr Hi; [destruct Hi|]. destruct Hr as [H1 H2]. destruct Hi as [->|Hi]; [assumption|].
  pose proof (IH _ _ H2 Hi). lia.
Qed.

Lemma step_log st c b :
  inv st -> log_upto b (proj (members_of st)) -> b <= ckey c ->
  log_upto (ckey c) (proj (members_of (fst (member_step st c)))).
Proof.
  intros Hi Hl Hb. destruct (step_cases st c) as [[st' [outs [Ha ->]]]| ->]; cbn.
  - destruct Hi as [_ Hk]. pose proof (accepts_effect _ _ _ _ Hk Ha) as [[H1 H2 H3 H4 H5|w t ch -> H ->] _].
    + rewrite (proj_same _ _ H2 H3). eapply log_upto_mono; eassumption.
    + rewrite proj_save. rewrite (proj_same (members_of st)) by reflexivity. eapply snap_save_log; eassumption.
  - eapply log_upto_mono; eassumption.
Qed.

Lemma step_past st c b h :
  inv st -> log_upto b (proj (members_of st)) -> b <= ckey c -> h <= ckey c ->
  snap_at (proj (members_of (fst (member_step st c)))) h = snap_at (proj (members_of st)) h.
Proof.
  intros Hi Hl Hb Hh. destruct (step_cases st c) as [[st' [outs [Ha ->]]]| ->]; cbn; [|reflexivity].
  destruct Hi as [_ Hk]. pose proof (accepts_effect _ _ _ _ Hk Ha) as [[H1 H2 H3 H4 H5|w t ch -> H ->] _].
  - rewrite (proj_same _ _ H2 H3). reflexivity.
  - rewrite proj_save, (proj_same (members_of st)) by reflexivity. apply snap_save_at; [|assumption]. eapply log_upto_mono; eassumption.
Qed.

Lemma run_past cs : forall st b h,
  inv st -> log_upto b (proj (members_of st)) -> rising ckey b cs -> (forall c, In c cs -> h <= ckey c) ->
  snap_at (proj (members_of (member_run st cs))) h = snap_at (proj (members_of st)) h.
Proof.
  induction cs as [|c t IH]; intros st b h Hi Hl Hr Hc; [reflexivity|]. destruct Hr as [H1 H2].
  unfold member_run. cbn [fold_left]. change (fold_left _ t ?x) with (member_run x t).
  rewrite (IH _ (ckey c)); [|apply inv_step; assumption|eapply step_log; eassumption|assumption|intros d Hd; apply Hc; right; assumption].
  eapply step_past; try eassumption. apply Hc. left. reflexivity.
Qed.

Lemma run_history cs : forall st b h,
  inv st -> log_upto b (proj (members_of st)) -> rising ckey b cs -> b < h ->
  snap_at (proj (members_of (member_run st cs))) h =
  s_current (proj (members_of (member_run st (filter (fun c => ckey c <? h) cs)))).
Proof.
  induction cs as [|c t IH]; intros st b h Hi Hl Hr Hb.
  - eapply snap_at_later; eassumption.
  - destruct (ckey c <? h) eqn:E.
    + cbn [filter]. rewrite E. destruct Hr as [H1 H2]. unfold member_run. cbn [fold_left].
      apply (IH _ (ckey c)); [apply inv_step; assumption|eapply step_log; eassumption|assumption|apply N.ltb_lt; assumption].
    + apply N.ltb_ge in E.
      assert (Hall : forall d, In d (c :: t) -> h <= ckey d).
      { intros d [<-|Hd]; [assumption|]. destruct Hr as [_ H2]. pose proof (rising_ge _ _ _ H2 Hd). lia. }
      rewrite filter_none by (intros d Hd; apply N.ltb_ge; apply Hall; assumption).
      rewrite (run_past _ _ b h Hi Hl Hr Hall). cbn. eapply snap_at_later; eassumption.
Qed.

(** Checkpoints saved at creation. *)
Let save (s : snap) (c : N * N) : snap := snap_save s (snd c) (fst c).

Lemma checkpoints_log l : forall s b bound,
  log_upto b s -> ordered_upto bound l -> (forall a, In a l -> b <= fst a) -> b <= bound -> log_upto bound (fold_left save l s).
Proof.
  induction l as [|a t IH]; intros s b bound Hl Ho Hb Hbb; cbn.
  - eapply log_upto_mono; eassumption.
  - destruct Ho as [O1 [O2 O3]]. apply (IH _ (fst a)); [|assumption|assumption|assumption].
    eapply snap_save_log; [eassumption|]. apply Hb. left. reflexivity.
Qed.

Lemma checkpoints_at l : forall s b bound h,
  log_upto b s -> ordered_upto bound l -> (forall a, In a l -> b <= fst a) ->
  (b < h -> snap_at (fold_left save l s) h = fold_left (fun acc c => if fst c <? h then Some (snd c) else acc) l (s_current s)) /\
  ((forall a, In a l -> h <= fst a) -> snap_at (fold_left save l s) h = snap_at s h).
Proof.
  induction l as [|a t IH]; intros s b bound h Hl Ho Hb; cbn.
  - split; [|reflexivity]. intros H. eapply snap_at_later; eassumption.
  - destruct Ho as [O1 [O2 O3]]. pose proof (Hb a (or_introl eq_refl)) as Ha.
    assert (Hl' : log_upto (fst a) (save s a)) by (eapply snap_save_log; eassumption).
    pose proof (IH (save s a) (fst a) bound h Hl' O3 O2) as [I1 I2].
    split.
    + intros Hbh. destruct (fst a <? h) eqn:E.
      * apply N.ltb_lt in E. rewrite I1 by assumption. reflexivity.
      * apply N.ltb_ge in E. rewrite I2 by (intros d Hd; pose proof (O2 d Hd); lia).
        unfold save. rewrite snap_save_at; [|eapply log_upto_mono; eassumption|assumption].
        rewrite (snap_at_later s b h) by assumption.
        clear - O2 E. induction t as [|d t IH]; cbn; [reflexivity|].
        assert (h <= fst d) by (pose proof (O2 d (or_introl eq_refl)); lia).
        replace (fst d <? h) with false by (symmetry; apply N.ltb_ge; assumption). apply IH. intros x Hx. apply O2. right. assumption.
    + intros Hall. rewrite I2 by (intros d Hd; apply Hall; right; assumption).
      unfold save. apply snap_save_at; [eapply log_upto_mono; eassumption|]. apply Hall. left. reflexivity.
Qed.

Lemma last_before_opt h l : forall o,
  dflt 0 (fold_left (fun acc c => if fst c <? h then Some (snd c) else acc) l o) =
  fold_left (fun acc c => if fst c <? h then snd c else acc) l (dflt 0 o).
Proof. induction l as [|a t IH]; intros o; cbn; [reflexivity|]. rewrite IH. destruct (fst a <? h); reflexivity. Qed.

Lemma history_at e (l : list (N * N)) st0 cs h t :
  inv st0 -> proj (members_of st0) = snap_save (fold_left save l snap_empty) t (key e) ->
  ordered_upto (key e) l -> rising ckey (key e) cs ->
  dflt 0 (snap_at (proj (members_of (member_run st0 cs))) h) =
  if key e <? h then dflt 0 (s_current (proj (members_of (member_run st0 (filter (fun c => ckey c <? h) cs)))))
  else last_before h l.
Proof.
  intros Hi Hp Ho Hr.
  assert (Hl0 : log_upto (key e) (fold_left save l snap_empty)).
  { apply (checkpoints_log l snap_empty 0); [apply log_upto_empty|assumption|intros; lia|lia]. }
  assert (Hl : log_upto (key e) (proj (members_of st0))).
  { rewrite Hp. eapply snap_save_log; [eassumption|lia]. }
  destruct (key e <? h) eqn:E.
  - apply N.ltb_lt in E. rewrite (run_history cs st0 (key e)) by assumption. reflexivity.
  - apply N.ltb_ge in E. rewrite (run_past cs st0 (key e)); [|assumption|assumption|assumption|].
    2:{ intros c Hc. pose proof (rising_ge _ _ _ Hr Hc). lia. }
    rewrite Hp, snap_save_at by assumption.
    unfold last_before. change 0 with (dflt 0 (@None N)) at 2. rewrite <- last_before_opt.
    destruct (N.eq_dec h 0) as [->|Hh].
    + pose proof (checkpoints_at l snap_empty 0 (key e) 0 (log_upto_empty 0) Ho (fun a _ => N.le_0_l (fst a))) as [_ C].
      rewrite C by (intros; lia). cbn. f_equal. clear. induction l as [|a t IH]; [reflexivity|]. cbn. 
      replace (fst a <? 0) with false by (symmetry; apply N.ltb_ge; lia). apply IH.
    + pose proof (checkpoints_at l snap_empty 0 (key e) h (log_upto_empty 0) Ho (fun a _ => N.le_0_l (fst a))) as [C _].
      rewrite C by lia. reflexivity.
Qed.
End History.

Lemma total_at_height e i st0 cs h :
  member_instantiate e i = Ok st0 -> ordered_upto (e_height e) (checkpoints_by_height i) ->
  rising call_height (e_height e) cs ->
  query_total_weight (members_of (member_run st0 cs)) (AtHeight h) =
  if e_height e <? h then total_now (member_run st0 (filter (fun c => call_height c <? h) cs))
  else last_before h (checkpoints_by_height i).
Proof.
  intros H Ho Hr. apply init_inv in H. destruct H as [Hi [t [Hh _]]].
  apply (history_at m_total_height e_height (fun _ _ _ => eq_refl) (fun _ _ H _ => H) e _ _ _ _ t Hi Hh Ho Hr).
Qed.

Lemma total_at_time e i st0 cs t :
  member_instantiate e i = Ok st0 -> ordered_upto (ts_seconds (e_time e)) (checkpoints_by_seconds i) ->
  rising call_second (ts_seconds (e_time e)) cs ->
  query_total_weight (members_of (member_run st0 cs)) (AtTime t) =
  if ts_seconds (e_time e) <? ts_seconds t
  then total_now (member_run st0 (filter (fun c => call_second c <? ts_seconds t) cs))
  else last_before (ts_seconds t) (checkpoints_by_seconds i).
Proof.
  intros H Ho Hr. apply init_inv in H. destruct H as [Hi [tt [_ Hh]]].
  cbn [query_total_weight]. unfold total_weight_at_time.
  rewrite (history_at m_total_seconds (fun e => ts_seconds (e_time e)) (fun _ _ _ => eq_refl) (fun _ _ _ H => H) e _ _ _ (ts_seconds t) tt Hi Hh Ho Hr).
  destruct (_ <? _); [|reflexivity].
  pose proof (inv_run st0 (filter (fun c => call_second c <? ts_seconds t) cs) Hi) as [[_ Hs] _]. exact Hs.
Qed.

(** * C21 *)

Definition staking_of (st : member_state) : option staking :=
  match st with MToken s | MDenom s => Some s | _ => None end.

Lemma fungible_staking st s : fungible st s <-> staking_of st = Some s.
Proof.
  unfold fungible. destruct st; cbn; split; intros H; try (destruct H as [H|H]; inversion H; reflexivity); try discriminate;
    inversion H; auto.
Qed.

Lemma claims_fresh s id c : keyed s -> id = st_next_claim s ->
  osum (fun _ c => cl_amount c) (oset (st_claims s) id c) = all_claims s + cl_amount c.
Proof.
  intros Hk ->. pose proof (osum_oset (fun _ c => cl_amount c) (st_claims s) (st_next_claim s) c) as H. cbv beta in H.
  unfold oval in H. destruct (oget (st_claims s) (st_next_claim s)) eqn:E; [apply Hk in E; lia|]. unfold all_claims. lia.
Qed.

Lemma add_stake_books s e u a s' outs :
  add_stake s e u a = Ok (s', outs) ->
  all_stakes s' = all_stakes s + a /\ all_claims s' = all_claims s /\ paid_out outs = 0.
Proof.
  intros H. apply add_stake_ok in H. destruct H as [-> [-> _]]. split; [|split; [reflexivity|apply paid_report]].
  unfold all_stakes. cbn. pose proof (osum_set (m_weights (st_members s)) u (member_weight (st_members s) u + a)). unfold member_weight in *. lia.
Qed.

Lemma stake_execute_books o s e sender msg s' outs :
  keyed s -> sum_ok (st_members s) -> stake_execute o s e sender msg = Ok (s', outs) ->
  all_stakes s + all_claims s = paid_out outs + all_stakes s' + all_claims s'.
Proof.
  intros Hk Hs H. destruct msg; cbn [stake_execute] in H.
  - apply unstake_ok in H. destruct H as [r [Hr [-> [-> [H1 [H2 H3]]]]]]. rewrite paid_report.
    unfold all_claims at 2. cbn [st_claims st_with_claims st_with_members]. rewrite claims_fresh by auto. cbn [cl_amount].
    unfold all_stakes. cbn. pose proof (osum_set (m_weights (st_members s)) sender (member_weight (st_members s) sender - amount)).
    unfold member_weight in *. lia.
  - apply claim_ok in H; [|assumption]. destruct H as [_ [E [_ H]]].
    assert (all_stakes s' = all_stakes s) by (rewrite E; reflexivity). lia.
  - allb. unfold update_period in *. allb. destruct p; cbn; reflexivity.
  - allb. unfold add_hook in *. allb. reflexivity.
  - allb. unfold remove_hook in *. allb. reflexivity.
Qed.

Lemma accepts_books st c st' outs s :
  inv st -> accepts st c st' outs -> staking_of st = Some s ->
  exists s', staking_of st' = Some s' /\
    all_stakes s + all_claims s + staked_in st c = paid_out outs + all_stakes s' + all_claims s'.
Proof.
  intros [Hs Hk] Ha E. pose proof Ha as Ha'. unfold accepts in Ha'. unfold staked_in. rewrite Ha'. unfold accepts in Ha.
  destruct c as [o e sender coins msg]. cbn in *.
  destruct st, msg; cbn in Ha, E; try discriminate; apply bind_ok in Ha; destruct Ha as [[s1 o1] [H1 Ha]]; inversion Ha; subst; inversion E; subst; clear E Ha Ha'; exists s1; (split; [reflexivity|]).
  - destruct m as [amount h|m]; cbn [token_execute] in H1.
    + unfold token_receive in H1. apply bind_ok in H1. destruct H1 as [? [_ H]]. destruct h.
      * apply stake_token_ok in H. destruct H as [_ [_ H]]. apply add_stake_books in H. lia.
      * apply add_stakes_ok in H. destruct H as [m [ch [Hl [-> [-> H2]]]]]. rewrite paid_report.
        apply add_stakes_loop in Hl. destruct Hl as [w [more [-> [-> [Hw _]]]]]. unfold all_stakes, all_claims. cbn. lia.
      * allb. apply add_claims_ok in Hb; [|assumption]. destruct Hb as [n [cl [E [_ [_ [Hc _]]]]]].
        assert (all_stakes s1 = all_stakes s) by (rewrite E; reflexivity). unfold paid_out. cbn. lia.
      * discriminate.
    + pose proof (stake_execute_books _ _ _ _ _ _ _ Hk Hs H1). lia.
  - destruct m as [user|m]; cbn [denom_execute] in H1.
    + apply stake_denom_ok in H1. destruct H1 as [d [a [-> [_ [_ [_ H]]]]]]. apply add_stake_books in H. lia.
    + pose proof (stake_execute_books _ _ _ _ _ _ _ Hk Hs H1). destruct coins as [|[? ?] [|? ?]]; lia.
Qed.

Lemma accepts_kind st c st' outs s : accepts st c st' outs -> staking_of st' = Some s -> exists s0, staking_of st = Some s0.
Proof.
  unfold accepts. intros H E. destruct st, (mc_msg c); cbn in H; try discriminate;
    apply bind_ok in H; destruct H as [[s1 o1] [H1 H]]; inversion H; subst; cbn in *; try discriminate; eauto.
Qed.

Definition books_ok (cu : custody) : Prop :=
  inv (cu_state cu) /\
  forall s, staking_of (cu_state cu) = Some s -> cu_in cu = cu_out cu + all_stakes s + all_claims s.

Lemma books_step_ok cu c : books_ok cu -> books_ok (custody_step cu c).
Proof.
  intros [Hi Hb]. split; [apply inv_step; assumption|]. cbn. intros s' E'.
  destruct (step_cases (cu_state cu) c) as [[st' [outs [Ha Es]]]|Es]; rewrite Es in *; cbn in *.
  - destruct (accepts_kind _ _ _ _ _ Ha E') as [s E]. destruct (accepts_books _ _ _ _ _ Hi Ha E) as [s'' [E'' H]].
    rewrite E' in E''. inversion E''; subst. pose proof (Hb _ E). lia.
  - rewrite (Hb _ E').
    assert (staked_in (cu_state cu) c = 0).
    { unfold staked_in. unfold member_step in Es.
      destruct (member_execute _ _ _ _ _ _) as [r|] eqn:Ex; [|reflexivity].
      (* an accepted call that changes nothing brings nothing in *)
      subst r. destruct (accepts_books _ _ _ _ s' Hi Ex E') as [s'' [E'' H]]. rewrite E' in E''. inversion E''; subst.
      unfold staked_in in H. rewrite Ex in H. unfold paid_out in H. cbn in H. lia. }
    unfold paid_out. cbn. lia.
Qed.

Lemma books_run_ok st0 cs e i : member_instantiate e i = Ok st0 -> books_ok (custody_run st0 cs).
Proof.
  intros H. unfold custody_run. apply fold_left_inv; [intros; apply books_step_ok; assumption|].
  pose proof (init_inv _ _ _ H) as [Hi _]. split; [assumption|]. cbn. intros s E.
  destruct i; cbn in H; apply bind_ok in H; destruct H as [s1 [H1 H]]; inversion H; subst; cbn in E; inversion E; subst.
  - unfold token_instantiate, members_new in H1. allb.
    match goal with H : save_hooks _ _ = Ok _ |- _ => apply save_hooks_ok in H; destruct H as [h ->] end. reflexivity.
  - unfold denom_instantiate, members_new in H1. allb.
    match goal with H : save_hooks _ _ = Ok _ |- _ => apply save_hooks_ok in H; destruct H as [h ->] end. reflexivity.
Qed.

Lemma custody_balance e i st0 cs s :
  member_instantiate e i = Ok st0 -> let cu := custody_run st0 cs in
  fungible (cu_state cu) s -> cu_in cu = cu_out cu + all_stakes s + all_claims s.
Proof.
  intros H cu Hf. apply fungible_staking in Hf. pose proof (books_run_ok _ cs _ _ H) as [_ Hb]. apply Hb. assumption.
Qed.

Lemma custody_state st0 cs : cu_state (custody_run st0 cs) = member_run st0 cs.
Proof.
  unfold custody_run, member_run. change st0 with (cu_state (mk_custody st0 0 0)) at 2.
  generalize (mk_custody st0 0 0). induction cs as [|c t IH]; intros cu; [reflexivity|]. cbn [fold_left]. rewrite IH. reflexivity.
Qed.

(** * C22 *)

Lemma stake_call_inv st c st' outs s m :
  accepts st c st' outs -> fungible st s -> stake_call c m ->
  exists s', fungible st' s' /\ stake_execute (mc_oracle c) s (mc_env c) (mc_sender c) m = Ok (s', outs) /\
   (st = MToken s <-> st' = MToken s').
Proof.
  unfold accepts, stake_call. intros H Hf Hc. destruct Hf as [-> | ->]; destruct Hc as [Hc|Hc]; rewrite Hc in H; cbn in H; try discriminate;
   apply bind_ok in H; destruct H as [[s' o'] [H1 H]]; inversion H; subst; exists s'.
  - split; [left; reflexivity|]. split; [assumption|]. split; reflexivity.
  - split; [right; reflexivity|]. split; [assumption|]. split; discriminate.
Qed.

Lemma lsum_due e u s : lsum cl_amount (filter (due e u) (ovals (st_claims s))) = due_amount e u s.
Proof.
  unfold due_amount, osum, ovals. rewrite lsum_filter, lsum_map. reflexivity.
Qed.

Lemma claim_pays st c st' outs s user :
  member_reachable st -> accepts st c st' outs -> fungible st s -> stake_call c (SClaim user) ->
  let u := mc_sender c in
  (user = None \/ user = Some u) /\
  outs = [OPay (st_asset s) u (due_amount (mc_env c) u s)] /\
  exists s', fungible st' s' /\
    (forall id, oget (st_claims s') id =
       match oget (st_claims s) id with Some cl => if due (mc_env c) u cl then None else Some cl | None => None end) /\
    st_members s' = st_members s /\ st_asset s' = st_asset s /\ st_period s' = st_period s /\ st_next_claim s' = st_next_claim s.
Proof.
  intros Hr Ha Hf Hc u. apply reachable_inv in Hr. destruct Hr as [_ Hk].
  assert (Hks : keyed s) by (destruct Hf as [-> | ->]; exact Hk).
  destruct (stake_call_inv _ _ _ _ _ _ Ha Hf Hc) as [s' [Hf' [H _]]]. cbn [stake_execute] in H.
  apply claim_ok in H; [|assumption]. destruct H as [Hu [E [-> _]]].
  split; [assumption|]. split; [rewrite lsum_due; reflexivity|].
  exists s'. split; [assumption|]. split; [|rewrite E; auto].
  intros id. rewrite E. cbn. rewrite oget_ofilter. destruct (oget (st_claims s) id) as [cl|]; [|reflexivity].
  fold u. destruct (due (mc_env c) u cl); reflexivity.
Qed.

(** Everything that came in fits the amount type: then claims always go through. *)
Lemma claim_succeeds e i st0 cs s c :
  member_instantiate e i = Ok st0 -> let cu := custody_run st0 cs in
  cu_in cu < 2 ^ 128 -> fungible (cu_state cu) s -> 
  (mc_msg c = match cu_state cu with MToken _ => TokenMsg (TCommon (SClaim None)) | _ => DenomMsg (DCommon (SClaim None)) end) ->
  exists st' outs, accepts (cu_state cu) c st' outs.
Proof.
  intros H cu Hin Hf Hc. pose proof (custody_balance _ _ _ cs _ H Hf) as Hb. fold cu in Hb.
  assert (G : exists r, claim_stake s (mc_env c) (mc_sender c) None = Ok r).
  { unfold claim_stake. cbn [bind]. rewrite N.eqb_refl. cbn [guard bind]. rewrite claim_loop, releasable_due. cbn [N.add].
    assert (Hle : lsum cl_amount (filter (due (mc_env c) (mc_sender c)) (ovals (st_claims s))) < M128).
    { rewrite lsum_due. assert (due_amount (mc_env c) (mc_sender c) s <= all_claims s).
      { apply osum_le. intros k v _. destruct (due _ _ v); lia. }
      replace M128 with (2 ^ 128) by reflexivity. lia. }
    apply N.ltb_lt in Hle. rewrite Hle. cbn [bind]. eauto. }
  destruct G as [[s1 o1] G]. unfold accepts. rewrite Hc. destruct Hf as [Hf|Hf]; rewrite Hf; cbn [member_execute token_execute denom_execute stake_execute]; rewrite G; cbn; eauto.
Qed.

Lemma nft_claim_pays st c st' outs s user :
  member_reachable st -> accepts st c st' outs -> st = MNft s -> mc_msg c = NftMsg (NClaim user) ->
  let u := mc_sender c in
  (user = None \/ user = Some u) /\
  exists col s', ns_contract s = NCw721 col /\ st' = MNft s' /\
    outs = map (OSendNft col u) (flat_map nc_tokens (filter (nft_due (mc_env c) u) (ovals (ns_claims s)))) /\
    (forall id, oget (ns_claims s') id =
       match oget (ns_claims s) id with Some cl => if nft_due (mc_env c) u cl then None else Some cl | None => None end) /\
    ns_members s' = ns_members s /\ ns_contract s' = ns_contract s /\ ns_period s' = ns_period s /\
    ns_stakes s' = ns_stakes s /\ ns_next_claim s' = ns_next_claim s.
Proof.
  intros Hr Ha -> Hc u. apply reachable_inv in Hr. destruct Hr as [_ Hk]. unfold accepts in Ha. rewrite Hc in Ha. cbn in Ha.
  apply bind_ok in Ha. destruct Ha as [[s' o'] [H Ha]]. inversion Ha; subst. apply claim_nft_ok in H; [|assumption].
  destruct H as [Hu [col [H1 [E ->]]]]. split; [assumption|]. exists col, s'. split; [assumption|]. split; [reflexivity|].
  split; [reflexivity|]. split; [|rewrite E; auto 6].
  intros id. rewrite E. cbn. rewrite oget_ofilter. destruct (oget (ns_claims s) id) as [cl|]; [|reflexivity].
  fold u. destruct (nft_due (mc_env c) u cl); reflexivity.
Qed.

(** * C23 *)

Lemma release_exact e p r : calculate_release_at e p = Ok r <-> release_exists e p /\ r = release_computed e p.
Proof.
  unfold release_exists, release_computed, calculate_release_at. destruct p as [h|s].
  - unfold u64_add. split; [intros H; inversion H; auto|intros [_ ->]; reflexivity].
  - unfold ts_plus_seconds, ts_plus_nanos, u64_mul, uint64_add. change (2 ^ 64) with M64.
    destruct (N.ltb_spec (e_time e + (s * NANOS) mod M64) M64); cbn [bind];
      (split; [intros H'; inversion H'; auto|intros [H' ->]; try reflexivity; lia]).
Qed.

(** In range, this is one unlocking period later. *)
Lemma release_in_range e p : release_fits e p -> release_exists e p /\ release_computed e p = release_after e p.
Proof.
  unfold release_fits, release_after, release_exists, release_computed. destruct p as [h|s]; intros Hf.
  - rewrite N.mod_small by exact Hf. auto.
  - rewrite N.mod_small by lia. auto.
Qed.

Lemma release_total e p : release_exists e p -> calculate_release_at e p = Ok (release_computed e p).
Proof. intros H. apply release_exact. auto. Qed.

Lemma unstake_exact st c st' outs s a :
  accepts st c st' outs -> fungible st s -> stake_call c (SUnstake a) ->
  let u := mc_sender c in
  a <= weight_of st u /\
  let r := release_computed (mc_env c) (st_period s) in
  release_exists (mc_env c) (st_period s) /\
  (release_fits (mc_env c) (st_period s) -> r = release_after (mc_env c) (st_period s)) /\
  exists s', fungible st' s' /\
    (forall v, weight_of st' v = if v =? u then weight_of st u - a else weight_of st v) /\
    total_now st' = total_now st - a /\
    st_claims s' = oset (st_claims s) (st_next_claim s) (mk_claim (st_next_claim s) u a r) /\
    st_next_claim s' = st_next_claim s + 1 /\
    st_asset s' = st_asset s /\ st_period s' = st_period s /\ m_hooks (st_members s') = m_hooks (st_members s) /\
    paid_out outs = 0.
Proof.
  intros Ha Hf Hc u. destruct (stake_call_inv _ _ _ _ _ _ Ha Hf Hc) as [s' [Hf' [H _]]]. cbn [stake_execute] in H.
  apply unstake_ok in H. destruct H as [r [Hr [E [-> [H1 _]]]]]. apply release_exact in Hr. destruct Hr as [Hr ->].
  assert (Em : members_of st = st_members s) by (destruct Hf as [-> | ->]; reflexivity).
  assert (Em' : members_of st' = st_members s') by (destruct Hf' as [-> | ->]; reflexivity).
  unfold weight_of, total_now. rewrite Em, Em'. split; [assumption|].
  split; [exact Hr|]. split; [intros Hfit; apply release_in_range; exact Hfit|]. exists s'.
  split; [assumption|]. rewrite E. cbn.
  split. { intros v. rewrite ogetN_oset, (N.eqb_sym v). reflexivity. }
  split; [reflexivity|]. split; [reflexivity|]. split; [reflexivity|]. split; [reflexivity|]. split; [reflexivity|].
  split; [reflexivity|]. apply paid_report.
Qed.

Lemma unstake_succeeds st c s a :
  member_reachable st -> fungible st s ->
  mc_msg c = (match st with MToken _ => TokenMsg (TCommon (SUnstake a)) | _ => DenomMsg (DCommon (SUnstake a)) end) ->
  (exists st' outs, accepts st c st' outs) <->
  a <= weight_of st (mc_sender c) /\ st_next_claim s + 1 < 2 ^ 64 /\ release_exists (mc_env c) (st_period s).
Proof.
  intros Hr Hf Hc. split.
  { intros [st' [outs Ha]]. assert (Hsc : stake_call c (SUnstake a)) by (destruct Hf; subst st; red; auto).
    destruct (unstake_exact _ _ _ _ _ _ Ha Hf Hsc) as (H1 & H2 & _). split; [exact H1|]. split; [|exact H2].
    destruct (stake_call_inv _ _ _ _ _ _ Ha Hf Hsc) as [s' [_ [H _]]]. cbn [stake_execute] in H. unfold unstake in H.
    apply bind_ok in H. destruct H as (? & _ & H). apply bind_ok in H. destruct H as ([? ?] & _ & H).
    apply bind_ok in H. destruct H as (? & _ & H). apply bind_ok in H. destruct H as (? & _ & H).
    apply bind_ok in H. destruct H as (? & H & _). unfold add_claim in H. apply bind_ok in H. destruct H as (? & H & _).
    apply uint64_add_ok in H. cbn [st_with_members st_next_claim] in H. change (2 ^ 64) with M64. lia. }
  intros (Ha & Hn & Hp). apply reachable_inv in Hr. destruct Hr as [Hs _].
  assert (Em : members_of st = st_members s) by (destruct Hf as [-> | ->]; reflexivity).
  rewrite Em in Hs. pose proof (weight_le_total _ (mc_sender c) Hs) as Hw.
  assert (G : exists r, unstake s (mc_env c) (mc_sender c) a = Ok r).
  { unfold weight_of in Ha. rewrite Em in Ha. unfold unstake. fold (member_weight (st_members s) (mc_sender c)) in Ha.
    assert (E1 : a <=? member_weight (st_members s) (mc_sender c) = true) by (apply N.leb_le; assumption).
    rewrite E1. cbn [guard bind]. unfold decrement_member_weight, uint_sub. rewrite E1. cbn [bind].
    unfold decrement_total_weight, uint_sub.
    assert (E2 : a <=? total_weight (set_member_weight (st_members s) (mc_sender c) (member_weight (st_members s) (mc_sender c) - a)) = true).
    { apply N.leb_le. change (total_weight _) with (total_weight (st_members s)). lia. }
    rewrite E2. cbn [bind]. rewrite release_total by assumption. cbn [bind]. unfold add_claim, uint64_add. cbn [st_with_members st_next_claim].
    assert (E3 : st_next_claim s + 1 <? M64 = true) by (apply N.ltb_lt; exact Hn). rewrite E3. cbn [bind]. eauto. }
  destruct G as [[s1 o1] G]. unfold accepts. rewrite Hc. destruct Hf as [Hf|Hf]; subst st; cbn [member_execute token_execute denom_execute stake_execute]; rewrite G; cbn; eauto.
Qed.

Lemma unstake_nfts st c st' outs s ts :
  accepts st c st' outs -> st = MNft s -> mc_msg c = NftMsg (NUnstake ts) ->
  let u := mc_sender c in
  NoDup ts /\ (forall t, In t ts -> oget (ns_stakes s) t = Some u) /\
  let r := release_computed (mc_env c) (ns_period s) in
  release_exists (mc_env c) (ns_period s) /\
  (release_fits (mc_env c) (ns_period s) -> r = release_after (mc_env c) (ns_period s)) /\
  exists s', st' = MNft s' /\
    (forall t, oget (ns_stakes s') t = if existsb (N.eqb t) ts then None else oget (ns_stakes s) t) /\
    (forall v, weight_of st' v = if v =? u then weight_of st u - N.of_nat (length ts) else weight_of st v) /\
    total_now st' = total_now st - N.of_nat (length ts) /\
    ns_claims s' = oset (ns_claims s) (ns_next_claim s) (mk_nft_claim (ns_next_claim s) u ts r) /\
    ns_next_claim s' = ns_next_claim s + 1 /\
    ns_contract s' = ns_contract s /\ ns_period s' = ns_period s /\ m_hooks (ns_members s') = m_hooks (ns_members s).
Proof.
  intros Ha -> Hc u. unfold accepts in Ha. rewrite Hc in Ha. cbn in Ha.
  apply bind_ok in Ha. destruct Ha as [[s' o'] [H Ha]]. inversion Ha; subst.
  apply unstake_nft_ok in H. destruct H as [r [stk [Hl [Hr [E [-> _]]]]]].
  apply unstake_nft_loop in Hl. destruct Hl as [Hn [Ho He]].
  split; [assumption|]. split; [assumption|]. apply release_exact in Hr. destruct Hr as [Hr ->].
  split; [exact Hr|]. split; [intros Hfit; apply release_in_range; exact Hfit|]. exists s'. split; [reflexivity|].
  rewrite E. unfold weight_of, total_now. cbn.
  split; [exact He|]. split. { intros v. rewrite ogetN_oset, (N.eqb_sym v). reflexivity. }
  auto 8.
Qed.

(** * C24 *)

Lemma times_claimed_osum s t u :
  times_claimed s t u = osum (fun _ c => if nc_user c =? u then count t (nc_tokens c) else 0) (ns_claims s).
Proof. unfold times_claimed, osum, ovals. rewrite lsum_map. reflexivity. Qed.

Lemma count_cons t a l : count t (a :: l) = (if a =? t then 1 else 0) + count t l.
Proof. reflexivity. Qed.

Lemma count_nodup t l : NoDup l -> count t l = if existsb (N.eqb t) l then 1 else 0.
Proof.
  induction l as [|a r IH]; intros H; [reflexivity|]. inversion H; subst. rewrite count_cons, IH by assumption. cbn [existsb].
  rewrite (N.eqb_sym t a). destruct (a =? t) eqn:E; cbn; [|reflexivity]. apply N.eqb_eq in E. subst.
  destruct (existsb (N.eqb t) r) eqn:Ex; [|reflexivity]. apply existsb_exists in Ex. destruct Ex as [y [Hy Ey]]. apply N.eqb_eq in Ey. subst. contradiction.
Qed.

Lemma count_flat t (l : list nft_claim) : count t (flat_map nc_tokens l) = lsum (fun c => count t (nc_tokens c)) l.
Proof. induction l as [|c r IH]; [reflexivity|]. cbn [flat_map]. unfold count. rewrite lsum_app, lsum_cons. f_equal. exact IH. Qed.

Lemma count_pos t l : In t l <-> 1 <= count t l.
Proof.
  induction l as [|a r IH]; [split; [intros []|unfold count; cbn; lia]|]. rewrite count_cons. cbn [In]. destruct (a =? t) eqn:E.
  - apply N.eqb_eq in E. split; [lia|auto].
  - apply N.eqb_neq in E. rewrite IH. split; [intros [H|H]; [congruence|lia]|intros H; right; lia].
Qed.

(** Each token is in one place if it is held, in none otherwise. *)
Definition placed (s : nft_staking) (held : omap addr) : Prop :=
  forall t u, times_staked s t u + times_claimed s t u = match oget held t with Some v => if v =? u then 1 else 0 | None => 0 end.

Lemma times_claimed_add s t u id c :
  nkeyed s -> id = ns_next_claim s ->
  osum (fun _ c => if nc_user c =? u then count t (nc_tokens c) else 0) (oset (ns_claims s) id c) =
  times_claimed s t u + if nc_user c =? u then count t (nc_tokens c) else 0.
Proof.
  intros Hk ->. rewrite times_claimed_osum.
  pose proof (osum_oset (fun _ c => if nc_user c =? u then count t (nc_tokens c) else 0) (ns_claims s) (ns_next_claim s) c) as H.
  cbv beta in H. unfold oval in H. destruct (oget (ns_claims s) (ns_next_claim s)) eqn:E; [apply Hk in E; lia|]. lia.
Qed.

Lemma book_out_sends held c u l : forall t,
  oget (book_out (map (fun t => OSendNft c u t) l) held) t = if existsb (N.eqb t) l then None else oget held t.
Proof.
  unfold book_out. revert held. induction l as [|a r IH]; intros held t; [reflexivity|]. cbn [map fold_left existsb].
  rewrite IH, oget_odel, (N.eqb_sym t a). destruct (a =? t); cbn; [destruct (existsb _ r); reflexivity|reflexivity].
Qed.

Lemma book_out_reports held m ch : book_out (report m ch) held = held.
Proof. unfold book_out, report. induction (okeys (m_hooks m)) as [|h t IH]; [reflexivity|exact IH]. Qed.

Lemma flat_due_count e u s t :
  count t (flat_map nc_tokens (filter (nft_due e u) (ovals (ns_claims s)))) <= times_claimed s t u.
Proof.
  rewrite count_flat, lsum_filter. unfold times_claimed. apply lsum_le_in. intros c _. unfold nft_due.
  destruct (nc_user c =? u); cbn; [destruct (reached e (nc_release c)); lia|lia].
Qed.

(** One accepted call keeps the ledger exact, and what it sends away is held for the recipient. *)
Lemma nft_step_placed l c s st' outs :
  inv (le_state l) -> le_state l = MNft s -> placed s (le_held l) -> honest_call l c ->
  accepts (le_state l) c st' outs ->
  exists s', st' = MNft s' /\ placed s' (book_out outs (book_in (le_state l) c (le_held l))) /\
  forall col u t, In (OSendNft col u t) outs ->
    ns_contract s = NCw721 col /\ oget (le_held l) t = Some u /\ u = mc_sender c /\
    count t (flat_map (fun o => match o with OSendNft _ _ t => [t] | _ => [] end) outs) = 1.
Proof.
  intros [_ Hk] Es Hp Hh Ha. pose proof (Hh) as Hh'. unfold honest_call in Hh'. rewrite Es in *. cbn in Hk.
  pose proof Ha as Hex. unfold accepts in Hex. unfold book_in. rewrite Hex.
  assert (Norep : forall m ch col u t, ~ In (OSendNft col u t) (report m ch)).
  { intros m ch col u t Hi. unfold report in Hi. apply in_map_iff in Hi. destruct Hi as [? [? _]]. discriminate. }
  destruct c as [o e sender coins msg]. cbn [mc_msg mc_oracle mc_env mc_sender mc_coins] in *.
  destruct msg as [| |m|]; cbn in Hex; try discriminate. apply bind_ok in Hex. destruct Hex as [[s' outs'] [H Hex]]. inversion Hex; subst; clear Hex.
  exists s'. split; [reflexivity|].
  destruct m as [t h|ts|user|p|h|h]; cbn [nft_execute] in H.
  - pose proof (Hh' t h _ _ eq_refl Ha) as Hnone.
    apply receive_nft_ok in H. destruct H as [_ H]. pose proof (resolved_fields s o sender) as [F1 [F2 [F3 [F4 F5]]]].
    destruct h as [u|u r|]; [| |contradiction].
    + apply stake_nft_ok in H. destruct H as [-> [-> [_ [_ [Hfree _]]]]]. rewrite book_out_reports. split.
      2:{ intros col v t' Hi. exfalso. eapply Norep; eassumption. }
      intros t' v. pose proof (Hp t' v) as Hpt. unfold times_staked, times_claimed in *. cbn. rewrite F3, F2, !oget_oset.
      rewrite F2 in Hfree. destruct (t =? t') eqn:E.
      * apply N.eqb_eq in E. subst t'. rewrite Hnone, Hfree in Hpt. lia.
      * exact Hpt.
    + destruct H as [_ [H ->]]. unfold add_nft_claim in H. allb. split; [|intros col v t' []]. cbn [book_out fold_left].
      intros t' v. pose proof (Hp t' v) as Hpt. rewrite times_claimed_osum. unfold times_staked in *. cbn [ns_with_claims ns_stakes ns_claims].
      rewrite F2, F3, F4, times_claimed_add by auto. cbn [nc_user nc_tokens]. rewrite count_cons. unfold count at 1. cbn [lsum fold_right].
      rewrite oget_oset. destruct (t =? t') eqn:E.
      * apply N.eqb_eq in E. subst t'. rewrite Hnone in Hpt. destruct (u =? v); lia.
      * destruct (u =? v); lia.
  - apply unstake_nft_ok in H. destruct H as [r [stk [Hl [_ [-> [-> _]]]]]]. rewrite book_out_reports.
    apply unstake_nft_loop in Hl. destruct Hl as [Hn [Ho He]]. split.
    2:{ intros col v t' Hi. exfalso. eapply Norep; eassumption. }
    intros t' v. pose proof (Hp t' v) as Hpt. rewrite times_claimed_osum. unfold times_staked in *. cbn [ns_with_claims ns_with_members ns_with_stakes ns_stakes ns_claims].
    rewrite times_claimed_add by auto. cbn [nc_user nc_tokens]. rewrite He, count_nodup by assumption.
    destruct (existsb (N.eqb t') ts) eqn:E.
    + apply existsb_exists in E. destruct E as [y [Hy Ey]]. apply N.eqb_eq in Ey. subst y. rewrite (Ho _ Hy) in Hpt. lia.
    + destruct (sender =? v); lia.
  - apply claim_nft_ok in H; [|assumption]. destruct H as [_ [col [Hcol [-> ->]]]].
    set (sent := flat_map nc_tokens (filter (nft_due e sender) (ovals (ns_claims s)))).
    assert (Hsent : forall t, In t sent -> oget (le_held l) t = Some sender /\ count t sent = 1 /\ times_claimed s t sender = 1).
    { intros t Ht. apply count_pos in Ht. pose proof (flat_due_count e sender s t) as Hle. fold sent in Hle.
      pose proof (Hp t sender) as Hpt. destruct (oget (le_held l) t) as [v|]; [|lia].
      destruct (v =? sender) eqn:E; [|lia]. apply N.eqb_eq in E. subst v. split; [reflexivity|]. lia. }
    split.
    + intros t u. rewrite book_out_sends. pose proof (Hp t u) as Hpt.
      assert (Hts : times_staked (ns_with_claims s (ns_next_claim s) (ofilter (fun _ c => negb (nft_due e sender c)) (ns_claims s))) t u = times_staked s t u) by reflexivity.
      rewrite Hts, times_claimed_osum. cbn [ns_with_claims ns_claims].
      pose proof (osum_split (fun c => if nc_user c =? u then count t (nc_tokens c) else 0) (nft_due e sender) (ns_claims s)) as Hsp.
      cbv beta in Hsp. rewrite <- times_claimed_osum in Hsp.
      assert (Hd : lsum (fun c => if nc_user c =? u then count t (nc_tokens c) else 0) (filter (nft_due e sender) (ovals (ns_claims s)))
                   = if sender =? u then count t sent else 0).
      { unfold sent. rewrite count_flat, !lsum_filter. destruct (sender =? u) eqn:E.
        - apply N.eqb_eq in E. subst u. apply lsum_ext_in. intros c _. unfold nft_due. destruct (nc_user c =? sender); reflexivity.
        - apply lsum_zero. intros c _. unfold nft_due. destruct (nc_user c =? sender) eqn:E2; cbn; [|reflexivity].
          apply N.eqb_eq in E2. rewrite E2, E. destruct (reached e (nc_release c)); reflexivity. }
      rewrite Hd in Hsp. destruct (existsb (N.eqb t) sent) eqn:Ex.
      * apply existsb_exists in Ex. destruct Ex as [y [Hy Ey]]. apply N.eqb_eq in Ey. subst y.
        destruct (Hsent _ Hy) as [H1 [H2 H3]]. rewrite H1 in Hpt. destruct (sender =? u) eqn:E; [|lia].
        apply N.eqb_eq in E. subst u. lia.
      * assert (Hc0 : count t sent = 0).
        { destruct (N.eq_dec (count t sent) 0) as [|Hne]; [assumption|]. exfalso.
          assert (Hin : In t sent) by (apply count_pos; lia).
          assert (existsb (N.eqb t) sent = true); [|congruence]. apply existsb_exists. exists t. split; [assumption|apply N.eqb_refl]. }
        rewrite Hc0 in Hsp. destruct (sender =? u); lia.
    + intros col' u t Hi. apply in_map_iff in Hi. destruct Hi as [t' [Et Hi]]. inversion Et; subst.
      destruct (Hsent _ Hi) as [H1 [H2 _]]. split; [assumption|]. split; [assumption|]. split; [reflexivity|].
      rewrite <- H2. f_equal. clear. fold sent. induction sent as [|a r IH]; [reflexivity|]. cbn. f_equal. exact IH.
  - allb. unfold nft_update_period in *. allb. split; [|intros ? ? ? []]. destruct p; exact Hp.
  - allb. split; [|intros ? ? ? []]. exact Hp.
  - allb. split; [|intros ? ? ? []]. exact Hp.
Qed.

Definition ledger_ok (l : nft_ledger) : Prop :=
  inv (le_state l) /\ forall s, le_state l = MNft s -> placed s (le_held l).

Lemma nft_kind st c st' outs s : accepts st c st' outs -> st' = MNft s -> exists s0, st = MNft s0.
Proof.
  unfold accepts. intros H ->. destruct st, (mc_msg c); cbn in H; try discriminate;
    apply bind_ok in H; destruct H as [[s1 o1] [H1 H]]; inversion H; subst; eauto.
Qed.

Lemma ledger_step_ok l c : ledger_ok l -> honest_call l c -> ledger_ok (ledger_step l c).
Proof.
  intros [Hi Hp] Hh. split; [apply inv_step; assumption|]. cbn [ledger_step le_state le_held]. intros s' E'.
  destruct (step_cases (le_state l) c) as [[st' [outs [Ha Es]]]|Es]; rewrite Es in *; cbn [fst snd] in *.
  - destruct (nft_kind _ _ _ _ _ Ha E') as [s E].
    destruct (nft_step_placed l c s st' outs Hi E (Hp _ E) Hh Ha) as [s'' [E'' [H _]]].
    rewrite E' in E''. inversion E''; subst. exact H.
  - unfold book_out. cbn [fold_left]. unfold book_in.
    destruct (member_execute (mc_oracle c) (le_state l) (mc_env c) (mc_sender c) (mc_coins c) (mc_msg c)) as [[st1 o1]|] eqn:Ex.
    2:{ apply Hp. assumption. }
    unfold member_step in Es. rewrite Ex in Es. inversion Es; subst.
    destruct (nft_step_placed l c s' _ _ Hi E' (Hp _ E') Hh Ex) as [s'' [E'' [H _]]].
    rewrite E' in E''. inversion E''; subst. unfold book_out, book_in in H. cbn [fold_left] in H. rewrite Ex in H. exact H.
Qed.

Lemma init_ledger e i st0 : member_instantiate e i = Ok st0 -> ledger_ok (mk_ledger st0 oempty).
Proof.
  intros H. pose proof (init_inv _ _ _ H) as [Hi _]. split; [assumption|]. cbn. intros s ->.
  destruct i; cbn in H; apply bind_ok in H; destruct H as [s1 [H1 H]]; inversion H; subst.
  unfold nft_instantiate, members_new in H1. allb. intros t u. reflexivity.
Qed.

Lemma ledger_run_ok cs : forall l, ledger_ok l -> honest l cs -> ledger_ok (fold_left ledger_step cs l).
Proof.
  induction cs as [|c t IH]; intros l Hl Hh; [exact Hl|]. destruct Hh as [H1 H2]. cbn. apply IH; [|assumption].
  apply ledger_step_ok; assumption.
Qed.

Lemma report_no_nft m ch col u t : ~ In (OSendNft col u t) (report m ch).
Proof. intros Hi. unfold report in Hi. apply in_map_iff in Hi. destruct Hi as [? [? _]]. discriminate. Qed.

Lemma stake_no_nft o s e sender m s' outs col u t :
  stake_execute o s e sender m = Ok (s', outs) -> ~ In (OSendNft col u t) outs.
Proof.
  intros H. destruct m; cbn [stake_execute] in H.
  - apply unstake_ok in H. destruct H as [r [_ [_ [-> _]]]]. apply report_no_nft.
  - unfold claim_stake in H. allb. intros [Hi|[]]. discriminate.
  - allb. intros [].
  - allb. intros [].
  - allb. intros [].
Qed.

Lemma only_nft_sends st c st' outs col u t :
  accepts st c st' outs -> In (OSendNft col u t) outs -> exists s, st = MNft s.
Proof.
  unfold accepts. intros H Hi. destruct c as [o e sender coins msg]. cbn in H.
  destruct st as [s|s|s|m], msg as [x|x|x|x]; cbn [member_execute] in H; try discriminate;
    apply bind_ok in H; destruct H as [[s1 o1] [H1 H]]; inversion H; subst; clear H.
  - exfalso. destruct x as [amount h|x]; cbn [token_execute] in H1.
    + unfold token_receive in H1. apply bind_ok in H1. destruct H1 as [? [_ H]]. destruct h.
      * apply stake_token_ok in H. destruct H as [_ [_ H]]. apply add_stake_ok in H. destruct H as [_ [-> _]]. eapply report_no_nft; eassumption.
      * apply add_stakes_ok in H. destruct H as [m [ch [_ [_ [-> _]]]]]. eapply report_no_nft; eassumption.
      * allb. destruct Hi.
      * discriminate.
    + eapply stake_no_nft; eassumption.
  - exfalso. destruct x as [user|x]; cbn [denom_execute] in H1.
    + apply stake_denom_ok in H1. destruct H1 as [d [a [_ [_ [_ [_ H]]]]]]. apply add_stake_ok in H. destruct H as [_ [-> _]]. eapply report_no_nft; eassumption.
    + eapply stake_no_nft; eassumption.
  - eauto.
  - exfalso. destruct x; cbn [multisig_execute] in H1.
    + apply update_members_ok in H1. destruct H1 as [_ [_ [w [tt [ch [_ [-> _]]]]]]]. eapply report_no_nft; eassumption.
    + apply set_members_ok in H1. destruct H1 as [_ [_ [w [_ [-> _]]]]]. eapply report_no_nft; eassumption.
    + allb. destruct Hi.
    + allb. destruct Hi.
Qed.

Lemma nft_one_place e i st0 cs s t u :
  member_instantiate e i = Ok st0 -> honest (mk_ledger st0 oempty) cs ->
  let l := ledger_run st0 cs in le_state l = MNft s ->
  times_staked s t u + times_claimed s t u = match oget (le_held l) t with Some v => if v =? u then 1 else 0 | None => 0 end.
Proof.
  intros H Hh l E. apply init_ledger in H. pose proof (ledger_run_ok cs _ H Hh) as [_ Hp]. exact (Hp s E t u).
Qed.

Lemma nft_leaves_to_owner e i st0 cs c st' outs col u t :
  member_instantiate e i = Ok st0 -> honest (mk_ledger st0 oempty) (cs ++ [c]) ->
  let l := ledger_run st0 cs in
  accepts (le_state l) c st' outs -> In (OSendNft col u t) outs ->
  oget (le_held l) t = Some u /\ u = mc_sender c /\
  count t (flat_map (fun o => match o with OSendNft _ _ t => [t] | _ => [] end) outs) = 1 /\
  exists s, le_state l = MNft s /\ ns_contract s = NCw721 col.
Proof.
  intros H Hh l Ha Hi. apply init_ledger in H.
  assert (G : forall cs l0, honest l0 (cs ++ [c]) -> honest l0 cs /\ honest_call (fold_left ledger_step cs l0) c).
  { clear. induction cs as [|d t IH]; intros l0 Hh; cbn in *; [split; [exact I|tauto]|]. destruct Hh as [H1 H2].
    apply IH in H2. tauto. }
  apply G in Hh. destruct Hh as [H1 H2]. pose proof (ledger_run_ok cs _ H H1) as [Hv Hp].
  change (fold_left ledger_step cs (mk_ledger st0 oempty)) with l in *.
  destruct (only_nft_sends _ _ _ _ _ _ _ Ha Hi) as [s E].
  destruct (nft_step_placed l c s st' outs Hv E (Hp _ E) H2 Ha) as [s' [_ [_ G']]].
  destruct (G' _ _ _ Hi) as [G1 [G2 [G3 G4]]]. split; [assumption|]. split; [assumption|]. split; [assumption|].
  exists s. auto.
Qed.

(** * C57 *)

Definition weights_count (s : nft_staking) : Prop := forall u, ogetN (m_weights (ns_members s)) u = nfts_staked s u.

Lemma nfts_without u ts : forall (st st' : omap addr) who,
  fold_res (unstake_nft_one who) st ts = Ok st' ->
  osum (fun _ v => if v =? u then 1 else 0) st =
  osum (fun _ v => if v =? u then 1 else 0) st' + (if who =? u then N.of_nat (length ts) else 0).
Proof.
  induction ts as [|t ts IH]; intros st st' who H; cbn [fold_res] in H.
  - inversion H; subst. cbn. destruct (who =? u); lia.
  - apply bind_ok in H. destruct H as [st1 [H1 H]]. unfold unstake_nft_one in H1. allb. apply N.eqb_eq in Hb0. subst.
    pose proof (IH _ _ _ H) as E. pose proof (osum_odel (fun _ v => if v =? u then 1 else 0) st t) as Ho.
    cbv beta in Ho. unfold oval in Ho. unfold addr in *. rewrite Hb in Ho. cbn [length]. destruct (who =? u); lia.
Qed.

Lemma count_accepts s c s' outs :
  nkeyed s -> weights_count s -> accepts (MNft s) c (MNft s') outs -> weights_count s'.
Proof.
  intros Hk Hw Ha. unfold accepts in Ha. destruct c as [o e sender coins msg]. cbn [mc_oracle mc_env mc_sender mc_coins mc_msg] in Ha.
  destruct msg as [| |m|]; cbn [member_execute] in Ha; try discriminate.
  apply bind_ok in Ha. destruct Ha as [[s1 o1] [H Ha]]. inversion Ha; subst; clear Ha.
  destruct m as [t h|ts|user|p|h|h]; cbn [nft_execute] in H.
  - apply receive_nft_ok in H. destruct H as [_ H]. pose proof (resolved_fields s o sender) as [F1 [F2 [F3 [F4 F5]]]].
    destruct h as [u|u r|]; [| |contradiction].
    + apply stake_nft_ok in H. destruct H as [-> [_ [_ [_ [Hfree _]]]]]. rewrite F1, F2 in *.
      intros v. unfold nfts_staked. cbn. rewrite ogetN_oset.
      pose proof (osum_oset (fun _ v0 => if v0 =? v then 1 else 0) (ns_stakes s) t u) as Ho. cbv beta in Ho. unfold oval in Ho. unfold addr in *. rewrite Hfree in Ho.
      pose proof (Hw v) as Hv. unfold nfts_staked in Hv. unfold member_weight. destruct (u =? v) eqn:E.
      * apply N.eqb_eq in E. subst. rewrite Hv. lia.
      * rewrite Hv. lia.
    + destruct H as [_ [H _]]. unfold add_nft_claim in H. allb. intros v. unfold nfts_staked. cbn. rewrite F1, F2. apply Hw.
  - apply unstake_nft_ok in H. destruct H as [r [stk [Hl [_ [-> [_ [Hn _]]]]]]]. intros v. unfold nfts_staked. cbn. rewrite ogetN_oset.
    pose proof (nfts_without v _ _ _ _ Hl) as E. pose proof (Hw v) as Hv. unfold nfts_staked in Hv. unfold member_weight in *.
    destruct (sender =? v) eqn:Es.
    + apply N.eqb_eq in Es. subst. lia.
    + lia.
  - apply claim_nft_ok in H; [|assumption]. destruct H as [_ [c [_ [-> _]]]]. exact Hw.
  - allb. unfold nft_update_period in *. allb. destruct p; exact Hw.
  - allb. unfold add_hook in *. allb. exact Hw.
  - allb. unfold remove_hook in *. allb. exact Hw.
Qed.

Lemma nft_weight_is_count st s u :
  member_reachable st -> st = MNft s -> weight_of st u = nfts_staked s u.
Proof.
  intros [e [i [st0 [cs [H ->]]]]] E.
  assert (G : inv (member_run st0 cs) /\ forall s, member_run st0 cs = MNft s -> weights_count s).
  { clear E. unfold member_run. apply (fold_left_inv (fun st => inv st /\ forall s, st = MNft s -> weights_count s)).
    - intros st c [Hi Hw]. split; [apply inv_step; assumption|]. intros s' E'.
      destruct (step_cases st c) as [[st' [outs [Ha Es]]]|Es]; rewrite Es in E'; cbn in E'.
      + subst st'. destruct (nft_kind _ _ _ _ _ Ha eq_refl) as [s0 ->]. destruct Hi as [_ Hk].
        eapply count_accepts; [exact Hk|apply Hw; reflexivity|exact Ha].
      + apply Hw. assumption.
    - split; [apply init_inv in H; tauto|]. intros s1 ->.
      destruct i; cbn in H; apply bind_ok in H; destruct H as [s2 [H1 H]]; inversion H; subst.
      unfold nft_instantiate, members_new in H1. allb.
      match goal with H : save_hooks _ _ = Ok _ |- _ => apply save_hooks_ok in H; destruct H as [h ->] end.
      intros v. reflexivity. }
  destruct G as [_ G]. unfold weight_of. rewrite E. cbn. apply (G s E).
Qed.

(** * C25 *)

Definition told_right (m m' : members) (outs : list member_out) : Prop :=
  forall h u,
    (ohas (m_hooks m) h = true -> replay u (ogetN (m_weights m) u) (told h outs) = Some (ogetN (m_weights m') u)) /\
    (ohas (m_hooks m) h = false -> told h outs = []).

Lemma told_right_none m m' outs :
  m_weights m' = m_weights m -> (forall h, told h outs = []) -> told_right m m' outs.
Proof. intros H1 H2 h u. rewrite H2, H1. split; reflexivity. Qed.

Lemma told_right_change m m' ch :
  m_hooks m' = m_hooks m -> (forall u, replay u (ogetN (m_weights m) u) ch = Some (ogetN (m_weights m') u)) ->
  told_right m m' (report m' ch).
Proof.
  intros H1 H2 h u. rewrite told_report, H1. split; intros E; rewrite E; [apply H2|reflexivity].
Qed.

Lemma replay_one m e u w t : forall v,
  replay v (ogetN (m_weights m) v) [mk_change u (member_weight m u) w] =
  Some (ogetN (m_weights (save_total_weight (set_member_weight m u w) e t)) v).
Proof.
  intros v. unfold replay, member_weight. cbn. rewrite ogetN_oset. destruct (u =? v) eqn:E; [|reflexivity].
  apply N.eqb_eq in E. subst. rewrite N.eqb_refl. reflexivity.
Qed.

Lemma stake_told o s e sender m s' outs :
  keyed s -> stake_execute o s e sender m = Ok (s', outs) -> told_right (st_members s) (st_members s') outs.
Proof.
  intros Hk H. destruct m; cbn [stake_execute] in H.
  - apply unstake_ok in H. destruct H as [r [_ [-> [-> _]]]]. apply told_right_change; [reflexivity|]. apply replay_one.
  - apply claim_ok in H; [|assumption]. destruct H as [_ [-> [-> _]]]. apply told_right_none; reflexivity.
  - allb. unfold update_period in *. allb. destruct p; apply told_right_none; reflexivity.
  - allb. unfold add_hook in *. allb. apply told_right_none; reflexivity.
  - allb. unfold remove_hook in *. allb. apply told_right_none; reflexivity.
Qed.

Lemma add_stake_told s e u a s' outs :
  add_stake s e u a = Ok (s', outs) -> told_right (st_members s) (st_members s') outs.
Proof. intros H. apply add_stake_ok in H. destruct H as [-> [-> _]]. apply told_right_change; [reflexivity|]. apply replay_one. Qed.

Lemma sends_told c u l h : told h (map (fun t => OSendNft c u t) l) = [].
Proof. induction l as [|a r IH]; [reflexivity|exact IH]. Qed.

Lemma accepts_told st c st' outs :
  keys_ok st -> accepts st c st' outs -> (forall l, mc_msg c <> MultisigMsg (MSetMembers l)) ->
  told_right (members_of st) (members_of st') outs.
Proof.
  unfold accepts. intros Hk H Hns. destruct c as [o e sender coins msg]. cbn [mc_oracle mc_env mc_sender mc_coins mc_msg] in *.
  destruct st as [s|s|s|m], msg as [x|x|x|x]; cbn [member_execute] in H; try discriminate;
    apply bind_ok in H; destruct H as [[s1 o1] [H1 H]]; inversion H; subst; clear H; cbn [members_of keys_ok] in *.
  - destruct x as [amount h|x]; cbn [token_execute] in H1; [|eapply stake_told; eassumption].
    unfold token_receive in H1. apply bind_ok in H1. destruct H1 as [? [_ H]]. destruct h.
    + apply stake_token_ok in H. destruct H as [_ [_ H]]. eapply add_stake_told; eassumption.
    + apply add_stakes_ok in H. destruct H as [m [ch [Hl [-> [-> _]]]]].
      apply add_stakes_loop in Hl. destruct Hl as [w [more [-> [-> [_ [_ [Hr _]]]]]]].
      apply told_right_change; [reflexivity|]. exact Hr.
    + allb. apply add_claims_ok in Hb; [|assumption]. destruct Hb as [n [cl [-> _]]]. apply told_right_none; reflexivity.
    + discriminate.
  - destruct x as [user|x]; cbn [denom_execute] in H1; [|eapply stake_told; eassumption].
    apply stake_denom_ok in H1. destruct H1 as [d [a [_ [_ [_ [_ H]]]]]]. eapply add_stake_told; eassumption.
  - destruct x as [t h|ts|user|p|h|h]; cbn [nft_execute] in H1.
    + apply receive_nft_ok in H1. destruct H1 as [_ H]. pose proof (resolved_fields s o sender) as [F1 [F2 [F3 [F4 F5]]]].
      destruct h as [u|u r|]; [| |contradiction].
      * apply stake_nft_ok in H. destruct H as [-> [-> _]]. cbn [ns_with_members ns_members]. rewrite F1.
        apply told_right_change; [reflexivity|]. apply replay_one.
      * destruct H as [_ [H ->]]. unfold add_nft_claim in H. allb. cbn [ns_with_claims ns_members]. rewrite F1. apply told_right_none; reflexivity.
    + apply unstake_nft_ok in H1. destruct H1 as [r [stk [_ [_ [-> [-> _]]]]]]. apply told_right_change; [reflexivity|]. apply replay_one.
    + apply claim_nft_ok in H1; [|assumption]. destruct H1 as [_ [c [_ [-> ->]]]]. apply told_right_none; [reflexivity|]. intros h. apply sends_told.
    + allb. unfold nft_update_period in *. allb. destruct p; apply told_right_none; reflexivity.
    + allb. unfold add_hook in *. allb. apply told_right_none; reflexivity.
    + allb. unfold remove_hook in *. allb. apply told_right_none; reflexivity.
  - destruct x as [l|l|h|h]; cbn [multisig_execute] in H1.
    + apply update_members_ok in H1. destruct H1 as [_ [_ [w [t [ch [-> [-> [_ [Hr _]]]]]]]]].
      apply told_right_change; [reflexivity|]. exact Hr.
    + exfalso. apply (Hns l). reflexivity.
    + allb. unfold add_hook in *. allb. apply told_right_none; reflexivity.
    + allb. unfold remove_hook in *. allb. apply told_right_none; reflexivity.
Qed.

Lemma reports_unless_replaced st c st' outs h u :
  member_reachable st -> accepts st c st' outs -> (forall l, mc_msg c <> MultisigMsg (MSetMembers l)) ->
  (ohas (m_hooks (members_of st)) h = true -> replay u (weight_of st u) (told h outs) = Some (weight_of st' u)) /\
  (ohas (m_hooks (members_of st)) h = false -> told h outs = []).
Proof.
  intros Hr Ha Hn. apply reachable_inv in Hr. destruct Hr as [_ Hk]. exact (accepts_told _ _ _ _ Hk Ha Hn h u).
Qed.

Lemma replay_set old l : NoDup (map fst l) -> forall u x, lget l u = Some x ->
  replay u (ogetN old u) (map (fun uw => mk_change (fst uw) (ogetN old (fst uw)) (snd uw)) l) = Some x.
Proof.
  intros Hn u. unfold replay.
  assert (G : forall l w, ~ In u (map fst l) ->
    fold_left (fun acc ch => match acc with
      | Some w => if wc_user ch =? u then (if wc_old ch =? w then Some (wc_new ch) else None) else Some w
      | None => None end) (map (fun uw => mk_change (fst uw) (ogetN old (fst uw)) (snd uw)) l) (Some w) = Some w).
  { clear. induction l as [|[k v] t IH]; intros w H; [reflexivity|]. cbn in *. destruct (k =? u) eqn:E.
    - apply N.eqb_eq in E. tauto.
    - apply IH. tauto. }
  induction l as [|[k v] t IH]; intros x H; [discriminate|]. inversion Hn; subst. cbn [lget] in H. cbn [map fold_left wc_user wc_old wc_new fst snd].
  rewrite (N.eqb_sym u k) in H. destruct (k =? u) eqn:E.
  - apply N.eqb_eq in E. subst k. rewrite N.eqb_refl. inversion H; subst. apply G. assumption.
  - apply IH; assumption.
Qed.

(** Replacing the list: everybody on the new list is reported correctly, nobody else is mentioned. *)
Lemma set_members_reports st c st' outs l h u :
  accepts st c st' outs -> mc_msg c = MultisigMsg (MSetMembers l) ->
  (ohas (m_hooks (members_of st)) h = false -> told h outs = []) /\
  (ohas (m_hooks (members_of st)) h = true ->
     (In u (map fst l) -> replay u (weight_of st u) (told h outs) = Some (weight_of st' u)) /\
     (~ In u (map fst l) -> weight_of st' u = 0 /\ forall ch, In ch (told h outs) -> wc_user ch <> u)).
Proof.
  unfold accepts. intros H E. rewrite E in H. destruct st as [s|s|s|m]; cbn [member_execute] in H; try discriminate.
  apply bind_ok in H. destruct H as [[m1 o1] [H1 H]]. inversion H; subst; clear H. cbn [multisig_execute] in H1.
  apply set_members_ok in H1. destruct H1 as [_ [Hn [w [-> [-> Hw]]]]].
  assert (Hl : forall x, In (u, x) l -> lget l u = Some x).
  { intros x Hi. clear - Hn Hi. induction l as [|[k v] t IH]; [destruct Hi|]. inversion Hn; subst. cbn. destruct Hi as [Hi|Hi].
    - inversion Hi; subst. rewrite N.eqb_refl. reflexivity.
    - destruct (u =? k) eqn:E; [|auto]. apply N.eqb_eq in E. subst. exfalso. apply H1. apply in_map_iff. exists (k, x). auto. }
  assert (Hl' : ~ In u (map fst l) -> lget l u = None).
  { intros Hi. clear - Hi. induction l as [|[k v] t IH]; [reflexivity|]. cbn in *. destruct (u =? k) eqn:E; [|tauto].
    apply N.eqb_eq in E. subst. tauto. }
  unfold weight_of. cbn [members_of]. rewrite told_report. cbn [members_of m_hooks save_total_weight with_member_weights] in *.
  destruct (ohas (m_hooks m) h); (split; [intros Hd|intros Hd]); try discriminate; [|reflexivity]. split.
  - intros Hi. apply in_map_iff in Hi. destruct Hi as ([k x] & Ek & Hi). cbn in Ek. subst k. specialize (Hl _ Hi).
    assert (Ew : ogetN (m_weights (save_total_weight (with_member_weights m w) (mc_env c) (lsum snd l))) u = x) by (cbn; unfold ogetN; rewrite Hw, Hl; reflexivity).
    etransitivity; [apply replay_set; eassumption|]. f_equal. symmetry. exact Ew.
  - intros Hi. split; [cbn; unfold ogetN; rewrite Hw, (Hl' Hi); reflexivity|].
    intros ch Hc. apply in_map_iff in Hc. destruct Hc as (uw & <- & Huw). cbn. intros <-. apply Hi. apply in_map. exact Huw.
Qed.

Lemma replay_unmentioned u w l : (forall ch, In ch l -> wc_user ch <> u) -> replay u w l = Some w.
Proof.
  unfold replay. induction l as [|ch t IH]; intros H; [reflexivity|]. cbn [fold_left].
  assert (E : wc_user ch =? u = false) by (apply N.eqb_neq, H; left; reflexivity). rewrite E. apply IH. intros c Hc. apply H. right. exact Hc.
Qed.

(** For every message: every hook, and nobody else, is told how each user's weight changes, except that a user left out
    when the list of members is replaced drops to zero without a word. *)
Lemma reports_exact st c st' outs h u :
  member_reachable st -> accepts st c st' outs ->
  (ohas (m_hooks (members_of st)) h = false -> told h outs = []) /\
  (ohas (m_hooks (members_of st)) h = true ->
     (~ left_out c u -> replay u (weight_of st u) (told h outs) = Some (weight_of st' u)) /\
     (left_out c u -> weight_of st' u = 0 /\ replay u (weight_of st u) (told h outs) = Some (weight_of st u) /\
        forall ch, In ch (told h outs) -> wc_user ch <> u)).
Proof.
  intros Hr Ha. assert (D : (exists l, mc_msg c = MultisigMsg (MSetMembers l)) \/ forall l, mc_msg c <> MultisigMsg (MSetMembers l)).
  { destruct (mc_msg c) as [| | |[]]; try (right; discriminate). left. eauto. }
  destruct D as [[l El]|D].
  - destruct (set_members_reports _ _ _ _ _ h u Ha El) as [H1 H2]. split; [exact H1|]. intros Hh. destruct (H2 Hh) as [H3 H4]. split.
    + intros Hno. apply H3. destruct (in_dec N.eq_dec u (map fst l)) as [Hi|Hi]; [exact Hi|]. exfalso. apply Hno. exists l. auto.
    + intros [l' [El' Hi]]. rewrite El in El'. injection El' as <-. destruct (H4 Hi) as [H5 H6].
      split; [exact H5|]. split; [apply replay_unmentioned|]; exact H6.
  - destruct (reports_unless_replaced _ _ _ _ h u Hr Ha D) as [H1 H2]. split; [exact H2|]. intros Hh. split; [auto|].
    intros [l [El _]]. destruct (D _ El).
Qed.

(** * C26 *)

Lemma settings_by_controller st c st' outs :
  accepts st c st' outs ->
  m_enterprise (members_of st') = m_enterprise (members_of st) /\
  (period_of st' = period_of st /\ m_hooks (members_of st') = m_hooks (members_of st) /\
   (forall m, st = MMultisig m -> m_weights (members_of st') = m_weights m /\ total_now st' = total_now st)
   \/ mo_controller (mc_oracle c) = Ok (mc_sender c)).
Proof.
  unfold accepts. intros H. destruct c as [o e sender coins msg]. cbn [mc_oracle mc_env mc_sender mc_coins mc_msg] in *.
  assert (S : forall s m s1 o1, stake_execute o s e sender m = Ok (s1, o1) ->
     m_enterprise (st_members s1) = m_enterprise (st_members s) /\
     (st_period s1 = st_period s /\ m_hooks (st_members s1) = m_hooks (st_members s) \/ mo_controller o = Ok sender)).
  { intros s m s1 o1 H1. destruct m; cbn [stake_execute] in H1.
    - apply unstake_ok in H1. destruct H1 as [r [_ [-> _]]]. cbn. auto.
    - unfold claim_stake in H1. allb. cbn. auto.
    - allb. unfold update_period in *. allb. destruct p; cbn; auto.
    - allb. unfold add_hook in *. allb. cbn. auto.
    - allb. unfold remove_hook in *. allb. cbn. auto. }
  destruct st as [s|s|s|m], msg as [x|x|x|x]; cbn [member_execute] in H; try discriminate;
    apply bind_ok in H; destruct H as [[s1 o1] [H1 H]]; inversion H; subst; clear H; cbn [members_of period_of].
  - destruct x as [amount h|x]; cbn [token_execute] in H1.
    + unfold token_receive in H1. apply bind_ok in H1. destruct H1 as [? [_ H]].
      assert (G : st_period s1 = st_period s /\ m_hooks (st_members s1) = m_hooks (st_members s) /\ m_enterprise (st_members s1) = m_enterprise (st_members s)).
      { destruct h.
        - apply stake_token_ok in H. destruct H as [_ [_ H]]. apply add_stake_ok in H. destruct H as [-> _]. auto.
        - apply add_stakes_ok in H. destruct H as [m [ch [Hl [-> _]]]]. apply add_stakes_loop in Hl. destruct Hl as [w [more [-> _]]]. auto.
        - allb. unfold add_claims in *. allb.
          match goal with H : fold_res _ _ _ = Ok _ |- _ => revert H end. generalize 0 at 1.
          clear. revert s. induction claims as [|[[u a] r] t IH]; intros s n H; cbn [fold_res] in H; [inversion H; subst; auto|].
          apply bind_ok in H. destruct H as [[s2 t2] [H2 H]]. apply IH in H. unfold add_claim in H2. allb. exact H.
        - discriminate. }
      destruct G as [G1 [G2 G3]]. split; [assumption|]. left. rewrite G1, G2. split; [reflexivity|]. split; [reflexivity|]. intros m E. discriminate.
    + destruct (S _ _ _ _ H1) as [G1 [[G2 G3]|G2]]; (split; [assumption|]); [left|right; assumption].
      rewrite G2, G3. split; [reflexivity|]. split; [reflexivity|]. intros m E. discriminate.
  - destruct x as [user|x]; cbn [denom_execute] in H1.
    + apply stake_denom_ok in H1. destruct H1 as [d [a [_ [_ [_ [_ H]]]]]]. apply add_stake_ok in H. destruct H as [-> _].
      split; [reflexivity|]. left. split; [reflexivity|]. split; [reflexivity|]. intros m E. discriminate.
    + destruct (S _ _ _ _ H1) as [G1 [[G2 G3]|G2]]; (split; [assumption|]); [left|right; assumption].
      rewrite G2, G3. split; [reflexivity|]. split; [reflexivity|]. intros m E. discriminate.
  - destruct x as [t h|ts|user|p|h|h]; cbn [nft_execute] in H1.
    + apply receive_nft_ok in H1. destruct H1 as [_ H]. pose proof (resolved_fields s o sender) as [F1 [F2 [F3 [F4 F5]]]].
      destruct h as [u|u r|]; [| |contradiction].
      * apply stake_nft_ok in H. destruct H as [-> [-> _]]. cbn. rewrite F1, F5. split; [reflexivity|]. left.
        split; [reflexivity|]. split; [reflexivity|]. intros m E. discriminate.
      * destruct H as [_ [H ->]]. unfold add_nft_claim in H. allb. cbn. rewrite F1, F5. split; [reflexivity|]. left.
        split; [reflexivity|]. split; [reflexivity|]. intros m E. discriminate.
    + apply unstake_nft_ok in H1. destruct H1 as [r [stk [_ [_ [-> _]]]]]. split; [reflexivity|]. left.
      split; [reflexivity|]. split; [reflexivity|]. intros m E. discriminate.
    + unfold claim_nft in H1. allb. split; [reflexivity|]. left. split; [reflexivity|]. split; [reflexivity|]. intros m E. discriminate.
    + allb. unfold nft_update_period in *. allb. destruct p; auto.
    + allb. unfold add_hook in *. allb. auto.
    + allb. unfold remove_hook in *. allb. auto.
  - destruct x as [l|l|h|h]; cbn [multisig_execute] in H1.
    + apply update_members_ok in H1. destruct H1 as [Hc [_ [w [t [ch [-> _]]]]]]. auto.
    + apply set_members_ok in H1. destruct H1 as [Hc [_ [w [-> _]]]]. auto.
    + allb. unfold add_hook in *. allb. auto.
    + allb. unfold remove_hook in *. allb. auto.
Qed.

Lemma stake_execute_weights o s e sender m s' outs v :
  stake_execute o s e sender m = Ok (s', outs) ->
  st_asset s' = st_asset s /\
  (ogetN (m_weights (st_members s')) v = ogetN (m_weights (st_members s)) v \/
   v = sender /\ exists a, m = SUnstake a /\ a <= ogetN (m_weights (st_members s)) v /\
     ogetN (m_weights (st_members s')) v = ogetN (m_weights (st_members s)) v - a).
Proof.
  intros H1. destruct m; cbn [stake_execute] in H1.
  - apply unstake_ok in H1. destruct H1 as [r [_ [-> [_ [Hle _]]]]]. split; [reflexivity|]. cbn. rewrite ogetN_oset.
    destruct (sender =? v) eqn:E; [|auto]. apply N.eqb_eq in E. subst. right. split; [reflexivity|]. exists amount. auto.
  - unfold claim_stake in H1. allb. cbn. auto.
  - allb. unfold update_period in *. allb. destruct p; cbn; auto.
  - allb. unfold add_hook in *. allb. cbn. auto.
  - allb. unfold remove_hook in *. allb. cbn. auto.
Qed.

Lemma add_stake_weight s e u a s' outs v :
  add_stake s e u a = Ok (s', outs) ->
  st_asset s' = st_asset s /\
  ogetN (m_weights (st_members s')) v = ogetN (m_weights (st_members s)) v + if u =? v then a else 0.
Proof.
  intros H. apply add_stake_ok in H. destruct H as [-> _]. split; [reflexivity|]. cbn. rewrite ogetN_oset. unfold member_weight.
  destruct (u =? v) eqn:E; [apply N.eqb_eq in E; subst; reflexivity|lia].
Qed.

(** Every change of a fungible stake: who sent it, and by how much. *)
Lemma stake_changes st c st' outs s v :
  keys_ok st -> accepts st c st' outs -> fungible st s ->
  exists s', fungible st' s' /\ st_asset s' = st_asset s /\
  (weight_of st' v = weight_of st v \/
   (exists amount h, mc_msg c = TokenMsg (TReceive amount h) /\ st_asset s = Cw20 (mc_sender c) /\
      mo_restricted (mc_oracle c) v = Ok false /\
      weight_of st' v = weight_of st v +
        match h with
        | HStake u => if u =? v then amount else 0
        | HAddStakes l => lsum (fun p => if fst p =? v then snd p else 0) l
        | _ => 0
        end) \/
   (exists d amount user, mc_msg c = DenomMsg (DStake user) /\ mc_coins c = [(d, amount)] /\ st_asset s = Native d /\
      v = dflt (mc_sender c) user /\ mo_restricted (mc_oracle c) v = Ok false /\
      weight_of st' v = weight_of st v + amount) \/
   (exists amount, stake_call c (SUnstake amount) /\ v = mc_sender c /\ amount <= weight_of st v /\
      weight_of st' v = weight_of st v - amount)).
Proof.
  unfold accepts. intros Hk H Hf. destruct c as [o e sender coins msg]. cbn [mc_oracle mc_env mc_sender mc_coins mc_msg] in *. unfold stake_call. cbn [mc_msg].
  destruct Hf as [-> | ->]; destruct msg as [x|x|x|x]; cbn [member_execute] in H; try discriminate;
    apply bind_ok in H; destruct H as [[s1 o1] [H1 H]]; inversion H; subst; clear H; exists s1; unfold weight_of; cbn [members_of keys_ok] in *.
  - split; [left; reflexivity|]. destruct x as [amount h|x]; cbn [token_execute] in H1.
    + unfold token_receive in H1. apply bind_ok in H1. destruct H1 as [? [Hg H]]. apply guard_ok in Hg.
      assert (Has : st_asset s = Cw20 sender).
      { destruct (st_asset s); cbn in Hg; try discriminate. apply N.eqb_eq in Hg. subst. reflexivity. }
      destruct h.
      * apply stake_token_ok in H. destruct H as [_ [Hr H]]. destruct (add_stake_weight _ _ _ _ _ _ v H) as [E1 E2]. split; [assumption|].
        destruct (user =? v) eqn:E.
        -- apply N.eqb_eq in E. subst. right. left. exists amount, (HStake v). rewrite E2, N.eqb_refl. auto 6.
        -- left. rewrite E2. lia.
      * apply add_stakes_ok in H. destruct H as [m [ch [Hl [-> _]]]]. apply add_stakes_loop in Hl.
        destruct Hl as [w [more [-> [_ [_ [Hge [_ [Hr Hw]]]]]]]]. split; [reflexivity|]. cbn.
        destruct (N.eq_dec (ogetN w v) (ogetN (m_weights (st_members s)) v)) as [E|E]; [left; exact E|].
        right. left. exists amount, (HAddStakes stakers). split; [reflexivity|]. split; [assumption|]. split; [|apply Hw].
        apply Hr. pose proof (Hge v). lia.
      * allb. apply add_claims_ok in Hb; [|assumption]. destruct Hb as [n [cl [-> _]]]. auto.
      * discriminate.
    + destruct (stake_execute_weights _ _ _ _ _ _ _ v H1) as [E1 [E2|[-> [a [-> [Ha E2]]]]]]; (split; [assumption|]); [left; assumption|].
      right. right. right. exists a. auto.
  - split; [right; reflexivity|]. destruct x as [user|x]; cbn [denom_execute] in H1.
    + apply stake_denom_ok in H1. destruct H1 as [d [a [-> [Has [_ [Hr H]]]]]]. destruct (add_stake_weight _ _ _ _ _ _ v H) as [E1 E2]. split; [assumption|].
      destruct (dflt sender user =? v) eqn:E.
      * apply N.eqb_eq in E. right. right. left. exists d, a, user. subst v. auto 7.
      * left. rewrite E2. lia.
    + destruct (stake_execute_weights _ _ _ _ _ _ _ v H1) as [E1 [E2|[-> [a [-> [Ha E2]]]]]]; (split; [assumption|]); [left; assumption|].
      right. right. right. exists a. auto.
Qed.

Lemma stake_changes_reachable st c st' outs s v :
  member_reachable st -> accepts st c st' outs -> fungible st s ->
  exists s', fungible st' s' /\ st_asset s' = st_asset s /\
  (weight_of st' v = weight_of st v \/
   (exists amount h, mc_msg c = TokenMsg (TReceive amount h) /\ st_asset s = Cw20 (mc_sender c) /\
      mo_restricted (mc_oracle c) v = Ok false /\
      weight_of st' v = weight_of st v +
        match h with
        | HStake u => if u =? v then amount else 0
        | HAddStakes l => lsum (fun p => if fst p =? v then snd p else 0) l
        | _ => 0
        end) \/
   (exists d amount user, mc_msg c = DenomMsg (DStake user) /\ mc_coins c = [(d, amount)] /\ st_asset s = Native d /\
      v = dflt (mc_sender c) user /\ mo_restricted (mc_oracle c) v = Ok false /\
      weight_of st' v = weight_of st v + amount) \/
   (exists amount, stake_call c (SUnstake amount) /\ v = mc_sender c /\ amount <= weight_of st v /\
      weight_of st' v = weight_of st v - amount)).
Proof. intros Hr. apply reachable_inv in Hr. destruct Hr as [_ Hk]. apply stake_changes. exact Hk. Qed.

(** Every change of a fungible claim. *)
Lemma claim_changes st c st' outs s s' id :
  member_reachable st -> accepts st c st' outs -> fungible st s -> fungible st' s' ->
  oget (st_claims s') id = oget (st_claims s) id \/
  (exists cl, oget (st_claims s) id = Some cl /\ oget (st_claims s') id = None /\
     cl_user cl = mc_sender c /\ reached (mc_env c) (cl_release cl) = true) \/
  (exists cl, oget (st_claims s) id = None /\ oget (st_claims s') id = Some cl /\
     ((exists a, stake_call c (SUnstake a) /\ cl_user cl = mc_sender c /\ cl_amount cl = a) \/
      (exists a l, mc_msg c = TokenMsg (TReceive a (HAddClaims l)) /\ st_asset s = Cw20 (mc_sender c) /\
         In (cl_user cl, cl_amount cl, cl_release cl) l))).
Proof.
  intros Hr Ha Hf Hf'. apply reachable_inv in Hr. destruct Hr as [_ Hk].
  assert (Hks : keyed s) by (destruct Hf as [-> | ->]; exact Hk). clear Hk.
  unfold accepts in Ha. destruct c as [o e sender coins msg]. cbn [mc_oracle mc_env mc_sender mc_coins mc_msg] in *. unfold stake_call. cbn [mc_msg].
  assert (S : forall m s1 o1, stake_execute o s e sender m = Ok (s1, o1) ->
    oget (st_claims s1) id = oget (st_claims s) id \/
    (exists cl, oget (st_claims s) id = Some cl /\ oget (st_claims s1) id = None /\ cl_user cl = sender /\ reached e (cl_release cl) = true) \/
    (exists cl, oget (st_claims s) id = None /\ oget (st_claims s1) id = Some cl /\ exists a, m = SUnstake a /\ cl_user cl = sender /\ cl_amount cl = a)).
  { intros m s1 o1 H1. destruct m; cbn [stake_execute] in H1.
    - apply unstake_ok in H1. destruct H1 as [r [_ [-> _]]]. cbn. rewrite oget_oset. destruct (st_next_claim s =? id) eqn:E; [|auto].
      apply N.eqb_eq in E. subst id. right. right. eexists. split; [|split; [reflexivity|eexists; split; [reflexivity|auto]]].
      destruct (oget (st_claims s) (st_next_claim s)) eqn:E; [apply Hks in E; lia|reflexivity].
    - apply claim_ok in H1; [|assumption]. destruct H1 as [_ [-> _]]. cbn. rewrite oget_ofilter. destruct (oget (st_claims s) id) as [cl|] eqn:E; [|auto].
      destruct (due e sender cl) eqn:Ed; cbn; [|auto]. right. left. exists cl. unfold due in Ed. apply andb_true_iff in Ed. destruct Ed as [E1 E2].
      apply N.eqb_eq in E1. auto.
    - allb. unfold update_period in *. allb. destruct p; cbn; auto.
    - allb. unfold add_hook in *. allb. cbn. auto.
    - allb. unfold remove_hook in *. allb. cbn. auto. }
  destruct Hf as [-> | ->]; destruct msg as [x|x|x|x]; cbn [member_execute] in Ha; try discriminate;
    apply bind_ok in Ha; destruct Ha as [[s1 o1] [H1 Ha]]; inversion Ha; subst; clear Ha;
    (assert (s1 = s') by (destruct Hf' as [Hf'|Hf']; inversion Hf'; reflexivity)); subst s1.
  - destruct x as [amount h|x]; cbn [token_execute] in H1.
    + unfold token_receive in H1. apply bind_ok in H1. destruct H1 as [? [Hg H]]. apply guard_ok in Hg.
      assert (Has : st_asset s = Cw20 sender).
      { destruct (st_asset s); cbn in Hg; try discriminate. apply N.eqb_eq in Hg. subst. reflexivity. }
      destruct h.
      * apply stake_token_ok in H. destruct H as [_ [_ H]]. apply add_stake_ok in H. destruct H as [-> _]. auto.
      * apply add_stakes_ok in H. destruct H as [m [ch [Hl [-> _]]]]. auto.
      * allb. apply add_claims_ok in Hb; [|assumption]. destruct Hb as [n [cl [-> [Hn [_ [_ [H1 H2]]]]]]]. cbn.
        destruct (N.lt_ge_cases id (st_next_claim s)) as [Hlt|Hge]; [left; apply H1; assumption|].
        assert (Hnone : oget (st_claims s) id = None).
        { destruct (oget (st_claims s) id) eqn:E; [apply Hks in E; lia|reflexivity]. }
        destruct (oget cl id) as [c|] eqn:E; [|left; congruence].
        right. right. exists c. split; [assumption|]. split; [reflexivity|]. right. exists amount, claims. split; [reflexivity|]. split; [assumption|].
        eapply H2; eassumption.
      * discriminate.
    + destruct (S _ _ _ H1) as [G|[G|[cl [G1 [G2 [a [-> [G3 G4]]]]]]]]; [auto|auto|]. right. right. exists cl. split; [assumption|]. split; [assumption|].
      left. exists a. auto.
  - destruct x as [user|x]; cbn [denom_execute] in H1.
    + apply stake_denom_ok in H1. destruct H1 as [d [a [_ [_ [_ [_ H]]]]]]. apply add_stake_ok in H. destruct H as [-> _]. auto.
    + destruct (S _ _ _ H1) as [G|[G|[cl [G1 [G2 [a [-> [G3 G4]]]]]]]]; [auto|auto|]. right. right. exists cl. split; [assumption|]. split; [assumption|].
      left. exists a. auto.
Qed.

(** Every change of an NFT stake. *)
Lemma nft_stake_changes st c st' outs s s' t :
  member_reachable st -> accepts st c st' outs -> st = MNft s -> st' = MNft s' ->
  oget (ns_stakes s') t = oget (ns_stakes s) t \/
  (exists u, oget (ns_stakes s) t = None /\ oget (ns_stakes s') t = Some u /\
     mc_msg c = NftMsg (NReceive t (NStake u)) /\ collection_of s (mc_oracle c) = Some (mc_sender c) /\
     mo_restricted (mc_oracle c) u = Ok false) \/
  (exists ts, oget (ns_stakes s) t = Some (mc_sender c) /\ oget (ns_stakes s') t = None /\
     mc_msg c = NftMsg (NUnstake ts) /\ In t ts).
Proof.
  intros Hr Ha -> ->. apply reachable_inv in Hr. destruct Hr as [_ Hk]. cbn in Hk.
  unfold accepts in Ha. destruct c as [o e sender coins msg]. cbn [mc_oracle mc_env mc_sender mc_coins mc_msg] in *.
  destruct msg as [x|x|x|x]; cbn [member_execute] in Ha; try discriminate.
  apply bind_ok in Ha; destruct Ha as [[s1 o1] [H1 Ha]]; inversion Ha; subst; clear Ha.
  destruct x as [tok h|ts|user|p|h|h]; cbn [nft_execute] in H1.
  - apply receive_nft_ok in H1. destruct H1 as [Hc H]. pose proof (resolved_fields s o sender) as [F1 [F2 [F3 [F4 F5]]]].
    destruct h as [u|u r|]; [| |contradiction].
    + apply stake_nft_ok in H. destruct H as [-> [_ [_ [Hres [Hfree _]]]]]. cbn. rewrite F2 in *. rewrite oget_oset.
      destruct (tok =? t) eqn:E; [|auto]. apply N.eqb_eq in E. subst tok. right. left. exists u. auto 6.
    + destruct H as [_ [H _]]. unfold add_nft_claim in H. allb. cbn. rewrite F2. auto.
  - apply unstake_nft_ok in H1. destruct H1 as [r [stk [Hl [_ [-> _]]]]]. apply unstake_nft_loop in Hl. destruct Hl as [_ [Ho He]].
    cbn. rewrite He. destruct (existsb (N.eqb t) ts) eqn:E; [|auto]. apply existsb_exists in E. destruct E as [y [Hy Ey]]. apply N.eqb_eq in Ey. subst y.
    right. right. exists ts. auto.
  - apply claim_nft_ok in H1; [|assumption]. destruct H1 as [_ [c [_ [-> _]]]]. auto.
  - allb. unfold nft_update_period in *. allb. destruct p; auto.
  - allb. auto.
  - allb. auto.
Qed.
