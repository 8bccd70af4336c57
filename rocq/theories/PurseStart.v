(** The treasury of a DAO created by the factory. *)
From Coq Require Import Permutation.
From Verif Require Import Base OMap OMapLemmas Assets PollModel FundsModel FundsSpec MemberModel MemberSpec Msgs ControllerModel TreasuryModel EnterpriseModel
  OutpostsModel FactoryModel FactorySpec WorldModel WorldSpec CreationModel CreationFacts FacadeSpec PurseSpec PurseFacts.

Lemma created_purse X (Out : outside X) (x : X) o s sender m v fresh s' log eo e b :
  fa_tx s (mk_fa_call o sender (FaCreate m v) fresh) = Ok (s', log) -> NoDup fresh -> births_of eo e (fo_self o) log = Ok b ->
  exists d w0, assigned m fresh d /\ dao_of d b x = Some w0 /\
    forall ts, let A := addrs_of d in let w := world_run Out A w0 ts in
      lasting w -> treasury_kept A w -> Permutation (sent_by (a_treasury A) w) (ordered A w).
Proof.
  intros H Hf Hb. destruct (creation_gives_dao _ _ _ _ _ _ _ _ _ _ _ H Hf Hb) as (d & H1 & _ & H3).
  destruct (H3 X x) as (w0 & Hw & _ & Hn & _ & Ht & _). exists d, w0. split; [exact H1|]. split; [exact Hw|].
  intros ts A w L K. apply (treasury_exact X Out A w0 ts w Hn); [|reflexivity|exact L|exact K].
  eexists _, _. exact Ht.
Qed.
