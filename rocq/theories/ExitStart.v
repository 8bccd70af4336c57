(** Members of DAOs created by the factory can always leave. *)
From Verif Require Import Base OMap OMapLemmas Assets PollModel FundsModel FundsSpec MemberModel MemberSpec Msgs ControllerModel TreasuryModel EnterpriseModel
  OutpostsModel FactoryModel FactorySpec WorldModel WorldSpec CreationModel CreationFacts RewardSpec LedgerSpec ExitSpec ExitFacts.

Lemma created_exit X (Out : outside X) (x : X) o s sender m v fresh s' log eo eb b :
  fa_tx s (mk_fa_call o sender (FaCreate m v) fresh) = Ok (s', log) -> NoDup fresh -> births_of eo eb (fo_self o) log = Ok b ->
  exists d w0, assigned m fresh d /\ dao_of d b x = Some w0 /\
    forall ts u amount st e gas, let A := addrs_of d in let w := world_run Out A w0 ts in
      timely 0 ts -> lasting w -> calm A w -> undisturbed A w -> free_calls Out -> rewards_fit w ->
      fungible (w_member w) st -> amount <= weight_of (w_member w) u -> unlockable e (st_period st) (st_next_claim st) ->
      last_time ts <= e_time e -> is_dao A u = false -> u <> 0 -> (7 <= gas)%nat ->
      exists w', world_tx Out A w (mk_tx gas e u (to_membership A (unstaking (w_member w) amount))) = Ok w' /\
        weight_of (w_member w') u = weight_of (w_member w) u - amount.
Proof.
  intros H Hf Hb. destruct (creation_gives_dao _ _ _ _ _ _ _ _ _ _ _ H Hf Hb) as (d & H1 & _ & H3).
  destruct (H3 X x) as (w0 & Hw & _ & Hn & (ini & Hi) & _ & _ & _ & _ & Hg). exists d, w0. split; [exact H1|]. split; [exact Hw|].
  intros ts u amount st e gas A w T L C U F R Hs Ha Hu Ht Hd H0 Hgas.
  assert (W : weights_covered w0 u).
  { unfold weights_covered, reward_weight, weight_of, ogetN. destruct (requested_type (cm_membership m)).
    4: { rewrite <- Hg. reflexivity. }
    all: destruct (Hg u) as (-> & _); cbn; lia. }
  destruct (unstake_goes_through X Out A w0 ts w (cm_minimum m) ini u amount st e gas Hn Hi W eq_refl T L C U F R Hs Ha Hu Ht Hd H0 Hgas) as (w' & st' & E1 & _ & E2 & _).
  exists w'. split; [exact E1|]. rewrite E2, N.eqb_refl. reflexivity.
Qed.
