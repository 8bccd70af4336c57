(** Weight changes always get through to the governance contract and the distributor. *)
From Verif Require Import Base OMap OMapLemmas Assets PollModel PollSpec PollProofs PollFacts FundsModel FundsSpec FundsProofs FundsFacts MemberModel
  MemberSpec MemberProofs MemberFacts Msgs ControllerModel ControllerSpec ControllerProofs ControllerFacts TreasuryModel EnterpriseModel
  EnterpriseSpec EnterpriseFacts OutpostsModel WorldModel WorldSpec WorldMember WorldProofs WorldRun LiftFacts RewardSpec RewardProofs LedgerSpec ExitSpec.

(** * The distributor's total fits the amount type *)

Lemma weights_total l : forall f t f' t', fold_res update_weight_one (f, t) l = Ok (f', t') -> t < M128 -> t' < M128.
Proof.
  induction l as [|[u x] l IH]; intros f t f' t' H HT; cbn [fold_res] in H; [injection H as <- <-; exact HT|].
  apply bind_ok in H. destruct H as ([f1 t1] & H1 & H). apply (IH _ _ _ _ H). unfold update_weight_one in H1.
  apply bind_ok in H1. destruct H1 as (? & _ & H1). apply bind_ok in H1. destruct H1 as (? & _ & H1).
  apply bind_ok in H1. destruct H1 as (? & _ & H1). apply bind_ok in H1. destruct H1 as (t2 & Ht & H1). injection H1 as _ <-.
  unfold uint_add in Ht. destruct (_ <? M128) eqn:E in Ht; [|discriminate]. injection Ht as <-. apply N.ltb_lt. exact E.
Qed.

Lemma minimum_total l b : forall f t f' t', fold_res (update_min_one b) (f, t) l = Ok (f', t') -> t < M128 -> t' < M128.
Proof.
  induction l as [|[u x] l IH]; intros f t f' t' H HT; cbn [fold_res] in H; [injection H as <- <-; exact HT|].
  apply bind_ok in H. destruct H as ([f1 t1] & H1 & H). apply (IH _ _ _ _ H). unfold update_min_one in H1.
  apply bind_ok in H1. destruct H1 as (? & _ & H1). apply bind_ok in H1. destruct H1 as (? & _ & H1).
  apply bind_ok in H1. destruct H1 as (? & _ & H1). apply bind_ok in H1. destruct H1 as (t2 & Ht & H1). injection H1 as _ <-.
  unfold uint_add in Ht. destruct (_ <? M128) eqn:E in Ht; [|discriminate]. injection Ht as <-. apply N.ltb_lt. exact E.
Qed.

Lemma funds_total o f s coins m f' ps : funds_execute o f s coins m = Ok (f', ps) -> f_total f < M128 -> f_total f' < M128.
Proof.
  destruct m as [ch|mn| |user ns cs|x known]; cbn [funds_execute]; intros H HT.
  - apply bind_ok in H. destruct H as (f1 & H1 & H). injection H as <- _. unfold update_user_weights in H1.
    apply bind_ok in H1. destruct H1 as (? & _ & H1). apply bind_ok in H1. destruct H1 as ([f2 t2] & H2 & H1). injection H1 as <-.
    cbn. exact (weights_total _ _ _ _ _ H2 HT).
  - apply bind_ok in H. destruct H as (f1 & H1 & H). injection H as <- _. unfold update_minimum in H1.
    apply bind_ok in H1. destruct H1 as (? & _ & H1). destruct (f_min f =? mn); [injection H1 as <-; auto|].
    destruct (if f_min f <? mn then (f_min f, mn) else (mn, f_min f)) as (lo & hi).
    apply bind_ok in H1. destruct H1 as ([f2 t2] & H2 & H1). injection H1 as <-. cbn. exact (minimum_total _ _ _ _ _ _ H2 HT).
  - apply bind_ok in H. destruct H as (f1 & H1 & H). injection H as <- _. unfold distribute_native in H1.
    repeat (apply bind_ok in H1; destruct H1 as (? & _ & H1)). injection H1 as <-. exact HT.
  - unfold claim_rewards in H. repeat (apply bind_ok in H; let y := fresh in destruct H as (y & _ & H); try destruct y). all: injection H as <- _; exact HT.
  - destruct known; [|discriminate]. apply bind_ok in H. destruct H as (f1 & H1 & H). injection H as <- _. unfold distribute_cw20 in H1.
    repeat (apply bind_ok in H1; destruct H1 as (? & _ & H1)). injection H1 as <-. exact HT.
Qed.

Lemma initial_total l : forall f t f' t', fold_res save_initial_one (f, t) l = Ok (f', t') -> t < M128 -> t' < M128.
Proof.
  induction l as [|[u x] l IH]; intros f t f' t' H HT; cbn [fold_res] in H; [injection H as <- <-; exact HT|].
  apply bind_ok in H. destruct H as ([f1 t1] & H1 & H). apply (IH _ _ _ _ H). unfold save_initial_one in H1.
  repeat (apply bind_ok in H1; let y := fresh in let Hy := fresh "G" in destruct H1 as (y & Hy & H1)). injection H1 as _ <-.
  unfold uint_add in *. repeat match goal with G : (if ?c then _ else _) = Ok _ |- _ => destruct c eqn:?; [|discriminate] end.
  repeat match goal with G : Ok _ = Ok _ |- _ => injection G as <- end. apply N.ltb_lt. assumption.
Qed.

Lemma books_total f0 cs : f_total f0 < M128 -> f_total (b_funds (books_run f0 cs)) < M128.
Proof.
  intros H. unfold books_run. apply (fold_left_inv (fun b => f_total (b_funds b) < M128)); [|exact H].
  intros b c Hb. unfold books_step. cbn [b_funds]. unfold funds_step.
  destruct (funds_execute _ _ _ _ _) as [[f' ps]|] eqn:E; [|exact Hb]. cbn [fst]. exact (funds_total _ _ _ _ _ _ _ E Hb).
Qed.

Lemma reachable_total b : reachable b -> f_total (b_funds b) < M128.
Proof.
  intros (ad & en & mn & ini & f0 & cs & Hi & ->). apply books_total. unfold funds_instantiate in Hi.
  apply bind_ok in Hi. destruct Hi as (? & _ & Hi). apply bind_ok in Hi. destruct Hi as (? & _ & Hi).
  apply bind_ok in Hi. destruct Hi as ([f1 t1] & H1 & Hi). injection Hi as <-. cbn. apply (initial_total _ _ _ _ _ H1). reflexivity.
Qed.

Lemma books_admin f0 cs : f_admin (b_funds (books_run f0 cs)) = f_admin f0.
Proof.
  unfold books_run. apply (fold_left_inv (fun b => f_admin (b_funds b) = f_admin f0)); [|reflexivity].
  intros b c Hb. unfold books_step. cbn [b_funds]. unfold funds_step.
  destruct (funds_execute _ _ _ _ _) as [[f' ps]|] eqn:E; [|exact Hb]. cbn [fst]. apply funds_weights in E. destruct E as (E & _). congruence.
Qed.

(** one user's weight can always be set to one that counts for no more than before *)
Lemma lower_defined b o coins u x : reachable b -> let f := b_funds b in (forall u a, exists n, claimable f u a = Ok n) -> u <> 0 ->
  effective_weight x (f_min f) <= ogetN (f_eff f) u ->
  exists f', funds_execute o f (f_admin f) coins (FUpdateUserWeights [(u, x)]) = Ok (f', []).
Proof.
  intros Hr f Hc Hu Hx. destruct (reachable_solvent b Hr) as (Hok & _). fold f in Hok. pose proof (reachable_total b Hr) as HT. fold f in HT.
  pose proof Hok as (Ht & He & Hn & Hcw). cbn [funds_execute]. unfold update_user_weights. rewrite N.eqb_refl. cbn [guard bind fold_res].
  destruct (update_weight_one_defined f f (f_total f) u x (evolved_refl f Ht Hn Hcw) He) as (f1 & t1 & H1 & _).
  - intros v a. destruct (Hc v a) as (n & E). apply (claimable_ok f v a n Hok E).
  - exact Hu.
  - pose proof (wsum_oset (f_eff f) u (effective_weight x (f_min f))). lia.
  - rewrite H1. cbn [bind]. eauto.
Qed.

(** * Delivery, forwards *)

Section F.
Context {X : Type} (Out : outside X) (A : addrs) (HA : NoDup (dao_addrs A)).
Notation go := (WorldModel.go Out A).
Notation handle := (WorldModel.handle Out A).

Lemma go_send n w e s to wm coins x w1 subs d w2 d2 : x_pay Out (w_ext w) s to coins = Ok x ->
  handle n (set_ext (note w s (WasmExecute to wm coins)) x) e s to wm coins = Ok (w1, subs, d) ->
  go n w1 e (JSubs to subs) = Ok (w2, d2) -> go (S n) w e (JMsg s (WasmExecute to wm coins)) = Ok (w2, d).
Proof. intros H1 H2 H3. cbn [WorldModel.go]. change (w_ext (note w s (WasmExecute to wm coins))) with (w_ext w). rewrite H1. cbn [bind]. rewrite H2. cbn [bind]. rewrite H3. reflexivity. Qed.

Lemma go_plain n w e self m rest w1 d1 : go n w e (JMsg self m) = Ok (w1, d1) ->
  go (S n) w e (JSubs self (plain m :: rest)) = go n w1 e (JSubs self rest).
Proof. intros H. cbn [WorldModel.go plain sm_msg sm_reply]. rewrite H. reflexivity. Qed.

Lemma go_done n w e self : go (S n) w e (JSubs self []) = Ok (w, None).
Proof. reflexivity. Qed.

Ltac other := symmetry; apply N.eqb_neq; let E := fresh in intros E; let HH := fresh in pose proof (apart A HA) as HH; decompose [and] HH; congruence.

(** all contracts but governance and distributor as before *)
Definition untold (w w' : world X) : Prop := rest_same w w' /\ w_member w' = w_member w.

Lemma vote_told n w e u x : free_calls Out -> g_admin (w_gov w) = a_controller A -> PollProofs.inv (w_gov w) -> started_by (w_gov w) (e_time e) ->
  x < M128 -> u <> 0 ->
  exists w1, go (S (S n)) w e (JMsg (a_controller A) (WasmExecute (a_governance A) (ToGovernance (GUpdateVotes u x)) [])) = Ok (w1, None) /\
    untold w w1 /\ w_funds w1 = w_funds w.
Proof.
  intros HF Ha Hi Hs Hx Hu. destruct (HF (w_ext w) (a_controller A) (a_governance A)) as (x' & Hp).
  destruct (update_votes_spec (w_gov w) e u x Hi Hx Hu Hs) as (g' & Hg & _ & _).
  eexists. split; [|split].
  - eapply go_send; [exact Hp| |apply go_done]. unfold WorldModel.handle.
    replace (a_governance A =? a_controller A) with false by other. rewrite N.eqb_refl.
    change (w_gov (set_ext (note w (a_controller A) _) x')) with (w_gov w). unfold gov_execute. rewrite Ha, N.eqb_refl. cbn [guard bind]. rewrite Hg. reflexivity.
  - repeat split.
  - reflexivity.
Qed.

Lemma funds_told n w e b u x : free_calls Out -> reachable b -> b_funds b = w_funds w -> rewards_fit w -> f_admin (w_funds w) = a_controller A ->
  u <> 0 -> effective_weight x (f_min (w_funds w)) <= ogetN (f_eff (w_funds w)) u ->
  exists w1, go (S (S n)) w e (JMsg (a_controller A) (WasmExecute (a_funds A) (ToFunds (FUpdateUserWeights [(u, x)])) [])) = Ok (w1, None) /\
    untold w w1 /\ w_gov w1 = w_gov w.
Proof.
  intros HF Hr Eb Hc Ha Hu Hx. destruct (HF (w_ext w) (a_controller A) (a_funds A)) as (x' & Hp).
  set (w2 := set_ext (note w (a_controller A) (WasmExecute (a_funds A) (ToFunds (FUpdateUserWeights [(u, x)])) [])) x').
  rewrite <- Eb in Hx. unfold rewards_fit in Hc. rewrite <- Eb in Hc.
  destruct (lower_defined b (funds_oracle_of Out A (S n) w2) [] u x Hr Hc Hu Hx) as (f' & Hf). rewrite Eb in Hf. rewrite Ha in Hf.
  eexists. split; [|split].
  - eapply go_send; [exact Hp| |apply go_done]. fold w2. unfold WorldModel.handle.
    replace (a_funds A =? a_controller A) with false by other.
    replace (a_funds A =? a_governance A) with false by other.
    replace (a_funds A =? a_membership A) with false by other.
    replace (a_funds A =? a_council A) with false by other.
    rewrite N.eqb_refl. change (w_funds w2) with (w_funds w). rewrite Hf. reflexivity.
  - repeat split.
  - reflexivity.
Qed.

(** a new weight of one user that counts for no more gets through *)
Lemma report_told n w e b u old x : free_calls Out -> wired A w -> PollProofs.inv (w_gov w) -> started_by (w_gov w) (e_time e) ->
  reachable b -> b_funds b = w_funds w -> rewards_fit w -> f_admin (w_funds w) = a_controller A ->
  x < M128 -> u <> 0 -> effective_weight x (f_min (w_funds w)) <= ogetN (f_eff (w_funds w)) u ->
  exists w1, go (S (S (S (S (S n))))) w e (JMsg (a_membership A) (WasmExecute (a_controller A) (ToController (CWeightsChanged [mk_change u old x])) [])) = Ok (w1, None) /\
    untold w w1.
Proof.
  intros HF HW Hi Hs Hr Eb Hc Ha Hx Hu Hl. destruct (HF (w_ext w) (a_membership A) (a_controller A)) as (x' & Hp).
  set (w2 := set_ext (note w (a_membership A) (WasmExecute (a_controller A) (ToController (CWeightsChanged [mk_change u old x])) [])) x').
  assert (Q : exists att, co_components (ctl_oracle_of Out A w2) = Ok (wiring_of A att)).
  { apply (wired_components Out). apply (note_wired A) with (s := a_membership A) (m := WasmExecute (a_controller A) (ToController (CWeightsChanged [mk_change u old x])) []) in HW.
    destruct HW as ([H1 H2 H3 H4 H5] & _). split; assumption. }
  destruct Q as (att & Q).
  assert (Hg : g_admin (w_gov w2) = a_controller A) by apply (wi_admin _ _ HW).
  set (w3 := set_ctl w2 (w_ctl w)).
  destruct (vote_told (S n) w3 e u x HF Hg Hi Hs Hx Hu) as (w4 & G4 & U4 & F4).
  assert (Eb4 : b_funds b = w_funds w4) by (rewrite F4; exact Eb).
  assert (Hc4 : rewards_fit w4) by (unfold rewards_fit; rewrite F4; exact Hc).
  assert (Ha4 : f_admin (w_funds w4) = a_controller A) by (rewrite F4; exact Ha).
  assert (Hl4 : effective_weight x (f_min (w_funds w4)) <= ogetN (f_eff (w_funds w4)) u) by (rewrite F4; exact Hl).
  destruct (funds_told n w4 e b u x HF Hr Eb4 Hc4 Ha4 Hu Hl4) as (w5 & G5 & U5 & _).
  exists w5. split.
  - eapply go_send; [exact Hp| |].
    + fold w2. unfold WorldModel.handle. rewrite N.eqb_refl. cbn [ctl_execute]. unfold weights_changed. rewrite Q. cbn [bind wiring_of Msgs.c_council c_membership].
      replace (a_membership A =? a_council A) with false by other. rewrite N.eqb_refl. cbn [guard bind]. reflexivity.
    + change (w_ctl w2) with (w_ctl w). fold w3. cbn [map app wc_user wc_new wiring_of c_governance c_funds].
      rewrite (go_plain _ _ _ _ _ _ _ _ G4). rewrite (go_plain _ _ _ _ _ _ _ _ G5). apply go_done.
  - destruct U4 as ((?&?&?&?&?&?) & ?), U5 as ((?&?&?&?&?&?) & ?). unfold untold, rest_same in *. repeat split; etransitivity; try eassumption; assumption.
Qed.

(** ... so that the membership contract may lower a weight whenever it agrees to *)
Lemma lowering_told n w e b s coins mm st u old x y : free_calls Out -> wired A w -> PollProofs.inv (w_gov w) -> started_by (w_gov w) (e_time e) ->
  reachable b -> b_funds b = w_funds w -> rewards_fit w -> f_admin (w_funds w) = a_controller A ->
  x_pay Out (w_ext w) s (a_membership A) coins = Ok y ->
  (forall w', w_member w' = w_member w -> w_enterprise w' = w_enterprise w -> w_treasury w' = w_treasury w ->
     member_execute (member_oracle_of Out A w' (w_member w)) (w_member w) e s coins mm = Ok (st, [OReport (a_controller A) [mk_change u old x]])) ->
  x < M128 -> u <> 0 -> effective_weight x (f_min (w_funds w)) <= ogetN (f_eff (w_funds w)) u ->
  exists w1, go (S (S (S (S (S (S (S n))))))) w e (JMsg s (WasmExecute (a_membership A) (ToMembership mm) coins)) = Ok (w1, None) /\
    rest_same w w1 /\ w_member w1 = st.
Proof.
  intros HF HW Hi Hs Hr Eb Hc Ha Hy Hm Hx Hu Hl.
  set (w2 := set_ext (note w s (WasmExecute (a_membership A) (ToMembership mm) coins)) y).
  assert (HW2 : wired A (set_member w2 st)).
  { apply (note_wired A) with (s := s) (m := WasmExecute (a_membership A) (ToMembership mm) coins) in HW. destruct HW as ([H1 H2 H3 H4 H5] & _). split; assumption. }
  destruct (report_told n (set_member w2 st) e b u old x HF HW2 Hi Hs Hr Eb Hc Ha Hx Hu Hl) as (w3 & G3 & (U1 & U2)).
  exists w3. split; [|split].
  - eapply go_send; [exact Hy| |].
    + fold w2. unfold WorldModel.handle. replace (a_membership A =? a_controller A) with false by other.
      replace (a_membership A =? a_governance A) with false by other. rewrite N.eqb_refl. change (w_member w2) with (w_member w).
      rewrite Hm by reflexivity. cbn [bind]. reflexivity.
    + cbn [map member_sub]. rewrite (go_plain _ _ _ _ _ _ _ _ G3). apply go_done.
  - exact U1.
  - exact U2.
Qed.
End F.

(** * Payments *)

Definition amount_type (h : holding) (n : N) : Prop :=
  match h with HAmount (Native _) | HAmount (Cw20 _) => True | HAmount (Cw1155 _ _) => False | HNft _ _ => n = 1 end.

Lemma hand_sends h to n : amount_type h n -> sends h (hand_over h to n) = n.
Proof.
  destruct h as [[d|t|t i]|c k]; cbn [amount_type hand_over sends]; intros H.
  - cbn. rewrite N.eqb_refl. unfold lsum. cbn. lia.
  - rewrite N.eqb_refl. reflexivity.
  - destruct H.
  - rewrite !N.eqb_refl. cbn. auto.
Qed.

Lemma hand_else h h' to n : h' <> h -> sends h' (hand_over h to n) = 0.
Proof.
  destruct h as [[d|t|t i]|c k], h' as [[d'|t'|t' i']|c' k']; cbn [hand_over sends]; intros H; try reflexivity.
  - unfold in_coins, lsum. cbn. destruct (d =? d') eqn:E; [|reflexivity]. apply N.eqb_eq in E. congruence.
  - destruct (t =? t') eqn:E; [|reflexivity]. apply N.eqb_eq in E. congruence.
  - destruct ((c =? c') && (k =? k')) eqn:E; [|reflexivity]. apply andb_true_iff in E. destruct E as (E1 & E2). apply N.eqb_eq in E1, E2. congruence.
Qed.

Lemma hand_ordinary h to n : amount_type h n -> ordinary (hand_over h to n).
Proof. destruct h as [[d|t|t i]|c k]; cbn; intros H; auto. Qed.

Definition holding_eqb (h h' : holding) : bool :=
  match h, h' with
  | HAmount (Native d), HAmount (Native d') => d =? d'
  | HAmount (Cw20 d), HAmount (Cw20 d') => d =? d'
  | HAmount (Cw1155 d i), HAmount (Cw1155 d' i') => (d =? d') && (i =? i')
  | HNft c k, HNft c' k' => (c =? c') && (k =? k')
  | _, _ => false
  end.

Lemma holding_eqb_spec h h' : holding_eqb h h' = true <-> h = h'.
Proof.
  destruct h as [[d|t|t i]|c k], h' as [[d'|t'|t' i']|c' k']; cbn; split; intros H; try discriminate H.
  all: try (apply andb_true_iff in H; destruct H as (E1 & E2); apply N.eqb_eq in E1, E2; congruence).
  all: try (apply N.eqb_eq in H; congruence).
  all: injection H; intros; subst; rewrite ?N.eqb_refl; reflexivity.
Qed.

(** a payment: of what, to whom, how much *)
Definition paying : Type := holding * N * N.
Definition paying_of (h : holding) (p : paying) : N := if holding_eqb (fst (fst p)) h then snd p else 0.
Definition paying_msg (p : paying) : cosmos_msg := hand_over (fst (fst p)) (snd (fst p)) (snd p).

Section P.
Context {X : Type} (Out : outside X) (A : addrs) (u : addr) (bal : holding -> X -> N).
Notation go := (WorldModel.go Out A).

(** all contracts as before *)
Definition all_same (w w' : world X) : Prop := rest_same w w' /\ w_member w' = w_member w /\ w_gov w' = w_gov w /\ w_funds w' = w_funds w.

Lemma one_paid n w e h to k : free_calls Out -> good_ledger Out A u h (bal h) -> amount_type h k -> 0 < k -> k <= bal h (w_ext w) ->
  exists w1 d, go (S (S n)) w e (JMsg u (hand_over h to k)) = Ok (w1, d) /\ all_same w w1 /\ w_log w1 = (u, hand_over h to k) :: w_log w /\
    forall h', honest_ledger Out u h' (bal h') -> bal h' (w_ext w) <= bal h' (w_ext w1) + (if holding_eqb h h' then k else 0).
Proof.
  intros HF [GH GP GO] HT Hk Hb. set (m := hand_over h to k).
  assert (HS : forall h', sends h' m = if holding_eqb h h' then k else 0).
  { intros h'. destruct (holding_eqb h h') eqn:E; [apply holding_eqb_spec in E; subst h'; apply hand_sends; exact HT|].
    apply hand_else. intros ->. rewrite (proj2 (holding_eqb_spec h h) eq_refl) in E. discriminate. }
  assert (HO : ordinary m) by (apply hand_ordinary; exact HT).
  assert (HX : (exists t wm, m = WasmExecute t wm [] /\ keeper h = Some t) \/ exists c, m = BankSend to c).
  { destruct h as [[d|t|t i]|c i]; cbn [hand_over] in m; cbn [amount_type keeper] in *; [right; eexists; reflexivity|left; do 2 eexists; split; reflexivity|destruct HT|left; do 2 eexists; split; reflexivity]. }
  destruct HX as [(t & wm & E & Ht)|(c & E)].
  - destruct (HF (w_ext w) u t) as (x & Hx).
    assert (HP : forall h', honest_ledger Out u h' (bal h') -> bal h' (w_ext w) <= bal h' x).
    { intros h' [HP _ _ _]. specialize (HP _ _ _ _ _ Hx). assert (Z : in_coins h' [] = 0) by (destruct h' as [[]|]; reflexivity).
      rewrite Z in HP. destruct (t =? u), (u =? u); lia. }
    set (w2 := set_ext (note w u m) x). pose proof (GP w2 e to k Hk) as G. fold m in G. rewrite E in G.
    specialize (HP h GH) as HPh. destruct G as (y & d & G); [cbn [w2 w_ext set_ext]; lia|].
    assert (Hd : is_dao A t = false) by (apply GO; exact Ht).
    exists (set_ext w2 y), d. rewrite E. split; [|split; [repeat split|split; [cbn; rewrite <- E; reflexivity|]]].
    + eapply go_send; [exact Hx| |apply go_done]. rewrite <- E. fold w2. unfold WorldModel.handle.
      unfold is_dao, dao_addrs in Hd. cbn [existsb] in Hd. repeat (apply orb_false_iff in Hd; let Z := fresh "Z" in destruct Hd as (Z & Hd)).
      rewrite Z, Z0, Z1, Z2, Z3, Z4, Z5, Z6, G. reflexivity.
    + intros h' GH'. specialize (HP h' GH'). destruct GH' as [_ HE _ _]. specialize (HE _ _ _ _ _ _ _ _ _ G (fun _ => ltac:(rewrite <- E; exact HO))).
      rewrite <- E, HS, N.eqb_refl in HE. cbn [w2 w_ext set_ext] in *. unfold lsum in HE; cbn in HE. lia.
  - set (w2 := note w u m). pose proof (GP w2 e to k Hk Hb) as G. fold m in G. rewrite E in G. destruct G as (y & d & G).
    exists (set_ext w2 y), d. rewrite E. split; [|split; [repeat split|split; [cbn; rewrite <- E; reflexivity|]]].
    + cbn [WorldModel.go]. rewrite <- E. fold w2. rewrite E. cbn [other_msg]. rewrite G. reflexivity.
    + intros h' [_ _ _ HM]. specialize (HM _ _ _ _ _ _ G (fun _ => ltac:(rewrite <- E; exact HO))).
      rewrite <- E, HS, N.eqb_refl in HM. exact HM.
Qed.

Lemma all_paid (ps : list paying) : forall n w e, free_calls Out ->
  (forall p, In p ps -> good_ledger Out A u (fst (fst p)) (bal (fst (fst p))) /\ amount_type (fst (fst p)) (snd p) /\ 0 < snd p /\
     lsum (paying_of (fst (fst p))) ps <= bal (fst (fst p)) (w_ext w)) ->
  (length ps + 2 <= n)%nat ->
  exists w1, go n w e (JSubs u (map (fun p => plain (paying_msg p)) ps)) = Ok (w1, None) /\ all_same w w1 /\
    w_log w1 = rev (map (fun p => (u, paying_msg p)) ps) ++ w_log w.
Proof.
  induction ps as [|[[h to] k] ps IH]; intros n w e HF HP Hn; cbn [map length rev] in *.
  - destruct n as [|n]; [lia|]. exists w. split; [apply go_done|]. split; [repeat split|reflexivity].
  - destruct (HP _ (or_introl eq_refl)) as (G1 & G2 & G3 & G4). cbn [fst snd] in *. rewrite lsum_cons in G4.
    assert (Z : paying_of h (h, to, k) = k) by (unfold paying_of; cbn [fst snd]; rewrite (proj2 (holding_eqb_spec h h) eq_refl); reflexivity).
    rewrite Z in G4. destruct n as [|[|[|n]]]; try lia.
    destruct (one_paid n w e h to k HF G1 G2 G3 ltac:(lia)) as (w1 & d & H1 & H2 & H3 & H4).
    destruct (IH (S (S n)) w1 e HF) as (w2 & I1 & I2 & I3); [|lia|].
    + intros p Hp. destruct (HP _ (or_intror Hp)) as (P1 & P2 & P3 & P4). split; [exact P1|]. split; [exact P2|]. split; [exact P3|].
      rewrite lsum_cons in P4. specialize (H4 _ (gl_honest _ _ _ _ _ P1)). unfold paying_of in P4 at 1. cbn [fst snd] in P4. lia.
    + exists w2. split; [rewrite (go_plain Out A _ _ _ _ _ _ _ _ H1); exact I1|]. split.
      * destruct H2 as ((?&?&?&?&?&?)&?&?&?), I2 as ((?&?&?&?&?&?)&?&?&?). unfold all_same, rest_same. repeat split; etransitivity; eassumption.
      * rewrite I3, H3, <- app_assoc. reflexivity.
Qed.
End P.
