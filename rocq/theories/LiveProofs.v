(** More gas does no harm: a result other than "out of gas" stays the same with more. *)
From Verif Require Import Base OMap OMapLemmas Assets PollModel FundsModel MemberModel Msgs ControllerModel TreasuryModel EnterpriseModel
  OutpostsModel WorldModel.

(** [r'] is what becomes of [r] with more gas *)
Definition firm {V} (r r' : res V) : Prop := r <> Err EGas -> r' = r.

Lemma firm_refl {V} (r : res V) : firm r r. Proof. intros _. reflexivity. Qed.
Lemma firm_gas {V} (r : res V) : firm (Err EGas) r. Proof. intros H. destruct (H eq_refl). Qed.
Lemma firm_bind {V U} (r r' : res V) (f f' : V -> res U) : firm r r' -> (forall v, firm (f v) (f' v)) -> firm (bind r f) (bind r' f').
Proof.
  intros H1 H2 H. destruct r as [v|x].
  - rewrite (H1 ltac:(discriminate)). cbn [bind] in *. apply H2. exact H.
  - cbn [bind] in *. rewrite H1 by congruence. reflexivity.
Qed.

Lemma whitelist_firm page : forall n n' l last, (n <= n')%nat -> firm (whitelist_loop n page l last) (whitelist_loop n' page l last).
Proof.
  induction n as [|n IH]; intros n' l last Hn; destruct l as [|a l]; cbn [whitelist_loop]; try (destruct n'; apply firm_refl).
  - destruct last; [apply firm_gas|destruct n'; apply firm_refl].
  - destruct n' as [|n']; [lia|]. destruct last; [|apply firm_refl]. apply firm_bind; [apply firm_refl|]. intros v. apply IH. lia.
Qed.

Lemma versions_firm page target : forall n n' last acc, (n <= n')%nat -> firm (versions_loop n page target last acc) (versions_loop n' page target last acc).
Proof.
  induction n as [|n IH]; intros n' last acc Hn; [apply firm_gas|]. destruct n' as [|n']; [lia|]. cbn [versions_loop].
  apply firm_bind; [apply firm_refl|]. intros v. destruct (rev v); [apply firm_refl|]. destruct (take_versions target v acc) as [a []]; [apply firm_refl|]. apply IH. lia.
Qed.

Lemma claims_firm limit : forall n n' m acc, (n <= n')%nat -> firm (claims_loop n limit m acc) (claims_loop n' limit m acc).
Proof.
  induction n as [|n IH]; intros n' m acc Hn; cbn [claims_loop].
  - destruct n'; cbn [claims_loop]; destruct (_ && _); (apply firm_gas || apply firm_refl).
  - destruct n' as [|n']; [lia|]. cbn [claims_loop]. destruct (_ && _); [|apply firm_refl]. apply firm_bind; [apply firm_refl|]. intros v. apply IH. lia.
Qed.

Lemma nft_claims_firm c mb limit : forall n n' m i l, (n <= n')%nat -> firm (nft_claims_loop n c mb limit m i l) (nft_claims_loop n' c mb limit m i l).
Proof.
  induction n as [|n IH]; intros n' m i l Hn; cbn [nft_claims_loop].
  - destruct n'; cbn [nft_claims_loop]; destruct (_ && _); (apply firm_gas || apply firm_refl).
  - destruct n' as [|n']; [lia|]. cbn [nft_claims_loop]. destruct (_ && _); [|apply firm_refl]. apply IH. lia.
Qed.

Lemma firm_pair {V U W} (r r' : res (V * U)) (f f' : V -> U -> res W) : firm r r' -> (forall v u, firm (f v u) (f' v u)) ->
  firm (bind r (fun p => let '(v, u) := p in f v u)) (bind r' (fun p => let '(v, u) := p in f' v u)).
Proof. intros H1 H2. apply firm_bind; [exact H1|]. intros [v u]. apply H2. Qed.

Lemma migration_firm n n' o limit : (n <= n')%nat -> firm (migration_step n o limit) (migration_step n' o limit).
Proof.
  intros Hn. assert (G : firm (migration_step_safe n o limit) (migration_step_safe n' o limit)).
  { unfold migration_step_safe. do 3 (apply firm_bind; [apply firm_refl|intros ?]). apply firm_bind; [|intros [[? ?] ?]; apply firm_refl].
    unfold finalize_membership. apply firm_bind; [apply firm_refl|intros ty]. destruct ty; try apply firm_refl.
    - apply firm_bind; [apply firm_refl|intros token]. apply firm_bind; [apply firm_refl|intros [[o1 m1] n1]].
      apply firm_bind; [|intros [[? ?] ?]; apply firm_refl]. unfold migrate_claims. apply firm_bind; [apply claims_firm; exact Hn|intros; apply firm_refl].
    - apply firm_bind; [apply firm_refl|intros token]. apply firm_bind; [apply firm_refl|intros [o1 m1]].
      apply firm_bind; [|intros [? ?]; apply firm_refl]. unfold migrate_nft_claims. apply firm_bind; [apply nft_claims_firm; exact Hn|intros; apply firm_refl]. }
  unfold migration_step. destruct (dflt _ _); [apply firm_refl|exact G|]. destruct (has_unmoved o); [exact G|apply firm_refl].
Qed.

Section More.
Context {X : Type}.
Variable Out : outside X.
Variable A : addrs.

Lemma handle_firm n n' w e s to m coins : (n <= n')%nat -> firm (handle Out A n w e s to m coins) (handle Out A n' w e s to m coins).
Proof.
  intros Hn. unfold handle. destruct (to =? a_controller A); [apply firm_refl|]. destruct (to =? a_governance A); [apply firm_refl|].
  destruct (to =? a_membership A); [apply firm_refl|]. destruct (to =? a_council A); [apply firm_refl|].
  destruct (to =? a_funds A).
  { destruct m; try apply firm_refl. apply firm_bind; [|intros [? ?]; apply firm_refl].
    destruct m; cbn [funds_execute funds_oracle_of fo_wl]; try apply firm_refl.
    - apply firm_bind; [|intros; apply firm_refl]. unfold distribute_native. apply firm_bind; [|intros; apply firm_refl].
      cbn [wl_fuel wl_page wl_global]. unfold assert_assets_whitelisted. apply firm_bind; [apply firm_refl|]. intros l. apply whitelist_firm. exact Hn.
    - destruct known; [|apply firm_refl]. apply firm_bind; [|intros; apply firm_refl]. unfold distribute_cw20. apply firm_bind; [|intros; apply firm_refl].
      cbn [wl_fuel wl_page wl_global]. unfold assert_assets_whitelisted. apply firm_bind; [apply firm_refl|]. intros l. apply whitelist_firm. exact Hn. }
  destruct (to =? a_treasury A).
  { destruct m; try apply firm_refl. apply firm_bind; [|intros [? ?]; apply firm_refl]. destruct m; try apply firm_refl.
    cbn [treasury_execute]. apply firm_bind; [apply migration_firm; exact Hn|intros [? ?]; apply firm_refl]. }
  destruct (to =? a_enterprise A); [|apply firm_refl].
  destruct m; try apply firm_refl. apply firm_bind; [|intros [? ?]; apply firm_refl]. destruct m; try apply firm_refl.
  cbn [enterprise_execute]. unfold upgrade_dao. do 3 (apply firm_bind; [apply firm_refl|intros ?]). apply firm_bind; [|intros; apply firm_refl].
  unfold versions_between. cbn [en_oracle_of eo_fuel eo_versions]. apply versions_firm. exact Hn.
Qed.

Lemma go_firm : forall n n' w e j, (n <= n')%nat -> firm (go Out A n w e j) (go Out A n' w e j).
Proof.
  induction n as [|n IH]; intros n' w e j Hn; [apply firm_gas|]. destruct n' as [|n']; [lia|]. assert (Hn' : (n <= n')%nat) by lia.
  destruct j as [s m|self subs].
  - destruct m; try apply firm_refl. cbn [go]. apply firm_bind; [apply firm_refl|intros x].
    apply firm_bind; [apply handle_firm; exact Hn'|intros [[w1 subs] d]]. apply firm_bind; [apply IH; exact Hn'|intros [? ?]; apply firm_refl].
  - destruct subs as [|x rest]; [apply firm_refl|]. cbn [go].
    pose proof (IH n' w e (JMsg self (sm_msg x)) Hn') as F. destruct (go Out A n w e (JMsg self (sm_msg x))) as [[w1 d]|err].
    + rewrite (F ltac:(discriminate)).
      destruct (sm_reply x); [apply IH; exact Hn'| |]; (apply firm_bind; [apply firm_refl|intros [w2 more]]; apply firm_bind; [apply IH; exact Hn'|intros [w3 ?]; apply IH; exact Hn']).
    + destruct err; try apply firm_gas; rewrite (F ltac:(discriminate));
      destruct (sm_reply x); try apply firm_refl; (apply firm_bind; [apply firm_refl|intros [w2 more]]; apply firm_bind; [apply IH; exact Hn'|intros [w3 ?]; apply IH; exact Hn']).
Qed.

(** a delivery that ends gives the same with more gas *)
Lemma go_more n n' w e j r : go Out A n w e j = r -> r <> Err EGas -> (n <= n')%nat -> go Out A n' w e j = r.
Proof. intros H1 H2 H3. rewrite <- H1 in *. exact (go_firm n n' w e j H3 H2). Qed.

End More.
