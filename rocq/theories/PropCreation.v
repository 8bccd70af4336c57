(** C69: the DAOs the factory creates are those whose histories the whole-DAO theorems describe. *)
From Verif Require Import Base OMap OMapLemmas Assets PollModel FundsModel FundsSpec MemberModel MemberSpec Msgs ControllerModel ControllerSpec
  TreasuryModel EnterpriseModel OutpostsModel FactoryModel FactorySpec FactoryExamples WorldModel WorldSpec WorldExamples CreationModel
  CreationFacts CreationCases.

(** C69: if all contracts the factory orders come to life, they form a new DAO. *)
Theorem C69_creation_gives_dao : forall o s sender m v fresh s' log eo e b,
  fa_tx s (mk_fa_call o sender (FaCreate m v) fresh) = Ok (s', log) -> NoDup fresh ->
  births_of eo e (fo_self o) log = Ok b ->
  exists d, assigned m fresh d /\ registered s s' d /\
    forall (X : Type) (x : X), exists w, dao_of d b x = Some w /\ w_ext w = x /\ new_dao (addrs_of d) w /\
      (exists ini, funds_instantiate (d_controller d) (d_enterprise d) (cm_minimum m) ini = Ok (w_funds w)) /\
      treasury_instantiate (d_controller d) (Some (dflt [] (cm_assets m))) (Some (dflt [] (cm_nfts m))) = Ok (w_treasury w) /\
      outposts_instantiate (d_enterprise d) = Ok (w_outposts w) /\
      en_components (w_enterprise w) = Some (wiring d) /\ en_type (w_enterprise w) = requested_type (cm_membership m) /\
      match requested_type (cm_membership m) with
      | DaoMultisig => forall u, oget (f_weights (w_funds w)) u = oget (m_weights (members_of (w_member w))) u
      | _ => forall u, oget (m_weights (members_of (w_member w))) u = None
               /\ oget (f_weights (w_funds w)) u
                  = if existsb (N.eqb u) (match cm_council m with Some c => cs_members c | None => [] end) then Some 1 else None
      end.
Proof. exact creation_gives_dao. Qed.
Print Assumptions C69_creation_gives_dao.

Example C69_nonvacuous :
  alive 1000 token_dao made_token [51; 61] = Some (DaoToken, [(None, Some 1); (None, None)])
  /\ alive 2000 denom_dao made_denom [51; 61] = Some (DaoDenom, [(None, Some 1); (None, None)])
  /\ alive 3000 nft_dao made_nft [51; 61] = Some (DaoNft, [(None, None); (None, None)])
  /\ alive 4000 multisig_dao made_multisig [51; 61; 62] = Some (DaoMultisig, [(None, None); (Some 3, Some 3); (Some 4, Some 4)])
  /\ alive 6000 cw3_dao made_cw3 [1000; 1249; 1250] = Some (DaoMultisig, [(Some 1, Some 1); (Some 5, Some 5); (None, None)]).
Proof. exact case_alive. Qed.

(** ... so that, for instance, in every history of a DAO created by the factory each proposal is executed at most once. *)
Theorem C69_created_executes_once : forall X (Out : outside X) (x : X) o s sender m v fresh s' log eo e b,
  fa_tx s (mk_fa_call o sender (FaCreate m v) fresh) = Ok (s', log) -> NoDup fresh ->
  births_of eo e (fo_self o) log = Ok b ->
  exists d w, assigned m fresh d /\ dao_of d b x = Some w /\
    forall ts id, lasting (world_run Out (addrs_of d) w ts) ->
      executions (addrs_of d) (world_run Out (addrs_of d) w ts) id =
        match oget (ct_proposals (w_ctl (world_run Out (addrs_of d) w ts))) id with
        | Some p => if is_some (pi_executed_at p) then 1 else 0
        | None => 0
        end.
Proof. exact created_executes_once. Qed.
Print Assumptions C69_created_executes_once.

Example C69_used_nonvacuous :
  match fa_tx f0 (create 4000 multisig_dao) with
  | Ok (_, log) =>
      match births_of (told 4000) (clock 50) f_self log with
      | Ok b => match dao_of made_multisig b tt with
                | Some w => let w' := world_run idle (addrs_of made_multisig) w in_new_dao in
                            executions (addrs_of made_multisig) w' 1 = 1 /\ f_min (w_funds w) = 2 /\ f_min (w_funds w') = 5
                | None => False
                end
      | Err _ => False
      end
  | Err _ => False
  end.
Proof. exact case_used. Qed.
