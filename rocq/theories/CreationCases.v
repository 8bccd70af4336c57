(** DAOs of every kind, created by the example factory and brought to life; one goes on to be used. *)
From Verif Require Import Base OMap Assets PollModel FundsModel MemberModel MemberSpec Msgs ControllerModel TreasuryModel EnterpriseModel
  OutpostsModel FactoryModel FactorySpec FactoryExamples WorldModel WorldSpec WorldExamples CreationModel.

Definition told (self : addr) : en_oracle := mk_en_oracle self f_self 10 (fun _ _ _ => Err EStd) (fun _ _ => Err EStd).
Definition create (n : N) (m : create_msg) : fa_call := mk_fa_call fo 200 (FaCreate m None) (fresh_at n).

(** The DAO made at [d] comes to life; its kind, and its weights in the membership and the distributor. *)
Definition alive (n : N) (m : create_msg) (d : made) (us : list N) : option (dao_type * list (option N * option N)) :=
  match fa_tx f0 (create n m) with
  | Ok (_, log) =>
      match births_of (told n) (clock 50) f_self log with
      | Ok b => match dao_of d b tt with
                | Some w => Some (en_type (w_enterprise w),
                                  map (fun u => (oget (m_weights (members_of (w_member w))) u, oget (f_weights (w_funds w)) u)) us)
                | None => None
                end
      | Err _ => None
      end
  | Err _ => None
  end.

Definition made_multisig : made := mk_made 4000 4001 4002 4003 4004 4005 None 4006 4007 None.
Definition made_cw3 : made := mk_made 6000 6001 6002 6003 6004 6005 None 6006 6007 None.

Lemma case_alive :
  alive 1000 token_dao made_token [51; 61] = Some (DaoToken, [(None, Some 1); (None, None)])
  /\ alive 2000 denom_dao made_denom [51; 61] = Some (DaoDenom, [(None, Some 1); (None, None)])
  /\ alive 3000 nft_dao made_nft [51; 61] = Some (DaoNft, [(None, None); (None, None)])
  /\ alive 4000 multisig_dao made_multisig [51; 61; 62] = Some (DaoMultisig, [(None, None); (Some 3, Some 3); (Some 4, Some 4)])
  /\ alive 6000 cw3_dao made_cw3 [1000; 1249; 1250] = Some (DaoMultisig, [(Some 1, Some 1); (Some 5, Some 5); (None, None)]).
Proof. vm_compute. repeat split. Qed.

(** 62 proposes in the new multisig DAO, votes yes with 4 of 7, and has the proposal executed after the end. *)
Definition in_new_dao : list tx :=
  let A := 4001 in
  let call t s m := mk_tx 60 (clock t) s (WasmExecute A (ToController m) []) in
  [call 100 62 (CCreateProposal [PUpdateMinimumWeight 5] None); call 110 62 (CCastVote 1 Yes); call 1100 61 (CExecuteProposal 1)].

Lemma case_used :
  match fa_tx f0 (create 4000 multisig_dao) with
  | Ok (_, log) =>
      match births_of (told 4000) (clock 50) f_self log with
      | Ok b => match dao_of made_multisig b tt with
                | Some w => let w' := world_run idle (addrs_of made_multisig) w in_new_dao in
                            executions (addrs_of made_multisig) w' 1 = 1 /\ f_min (w_funds w) = 2 /\ f_min (w_funds w') = 5
                | None => False
                end
      | Err _ => False
      end
  | Err _ => False
  end.
Proof. vm_compute. repeat split. Qed.
