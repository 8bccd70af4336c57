(** Witnesses for the properties of the factory. *)
From Verif Require Import Base OMap OMapLemmas Assets PollModel FundsModel FundsSpec MemberModel MemberSpec Msgs TreasuryModel TreasurySpec
  EnterpriseModel OutpostsModel MemberProofs FactoryModel FactorySpec FactoryProofs FactoryFacts FactoryExamples.

Lemma case_made : assigned token_dao (fresh_at 1000) made_token /\ assigned denom_dao (fresh_at 2000) made_denom
  /\ assigned nft_dao (fresh_at 3000) made_nft /\ NoDup (fresh_at 1000).
Proof.
  split; [|split; [|split]].
  1-3: (split; [eexists; vm_compute; reflexivity|split; [|split; reflexivity]]; vm_compute; intros a Ha;
    repeat (destruct Ha as [<-|Ha]; [discriminate|]); contradiction).
  assert (E : nodupb (fresh_at 1000) = true) by (vm_compute; reflexivity). apply nodupb_NoDup. exact E.
Qed.

Lemma case_accepted : version_asked fo f0 None = Ok v110 /\ membership_accepted fo token_dao [(51, 1); (52, 1)]
  /\ membership_accepted fo denom_dao [(51, 1); (52, 1)] /\ membership_accepted fo multisig_dao [(61, 3); (62, 4)]
  /\ (forall w, ~ membership_accepted fo hasty_dao w).
Proof.
  split; [reflexivity|]. split; [|split; [|split]].
  - split; [discriminate|]. split; [|split; [left; discriminate|split; [vm_compute; discriminate|reflexivity]]].
    intros x [<-|[<-|[]]]; discriminate.
  - split; [vm_compute; discriminate|reflexivity].
  - split; [discriminate|reflexivity].
  - intros w [H _]. vm_compute in H. apply H. reflexivity.
Qed.

Lemma case_created : match fa_tx f0 (create_at 1000 token_dao None) with
  | Ok (s, log) => elems (fa_daos s) = [(1, 1005)] /\ length log = 12%nat
      /\ log = creation_log f_self f_conf v110 token_dao [(51, 1); (52, 1)] made_token
      /\ map (fun a => admin_after log a None) (contracts made_token)
         = repeat (Some (Some 1000)) 9 ++ [Some None]
  | Err _ => False
  end.
Proof. vm_compute. repeat split; reflexivity. Qed.

(** The root contract of that DAO. *)
Lemma case_wired : match enterprise_instantiate (mk_env 1 1) f_self 30 None DaoToken (version 1 1 0) meta0 with
  | Ok x => match enterprise_execute (mk_en_oracle 1000 f_self 0 (fun _ _ _ => Err EStd) (fun _ _ => Err EStd)) x f_self (EnFinalize (wiring made_token)) with
            | Ok (x', []) => en_components x' = Some (mk_components 1002 1001 1005 1004 1008 1007 1003 (Some 1009))
            | _ => False
            end
  | Err _ => False
  end.
Proof. vm_compute. reflexivity. Qed.

Lemma case_registry : factory_instantiate f_conf (Some [Native 7; Cw20 8]) (Some [44]) = Ok f0
  /\ elems (fa_daos (fa_run f0 f_calls)) = [(1, 1005); (2, 2005); (3, 3005); (4, 4005); (5, 6005)]
  /\ map (fun n => is_ok (fa_tx (fa_run f0 (firstn n f_calls)) (nth n f_calls (create_at 0 cw3_dao None)))) (seq 0 10)
     = [true; false; true; false; true; false; true; true; false; true]
  /\ query_all_daos (fa_run f0 f_calls) (Some 2) (Some 2) = [(3, 3005); (4, 4005)]
  /\ fa_config (fa_run f0 f_calls) = mk_fa_conf 10 30 503 502.
Proof. split; [reflexivity|]. vm_compute. repeat split; reflexivity. Qed.

(** ** C48 *)

Definition denom_log : list effect := creation_log f_self f_conf v110 denom_dao [(51, 1); (52, 1)] made_denom.
Definition denom_init : member_init := IDenom 2000 7 (DTime 2000) [2001].
(** The treasury's whitelist has denom 7. *)
Definition seven : funds_oracle := mk_foracle (mk_wl 3 (fun start => Ok (match start with None => [Native 7] | _ => [] end)) []) (fun _ => false).

Lemma leak_refuted :
  exists o s sender m fresh s' log d i st f admin en l mn,
    fa_tx s (mk_fa_call o sender (FaCreate m None) fresh) = Ok (s', log) /\ NoDup fresh /\ assigned m fresh d
    /\ requested_type (cm_membership m) = DaoDenom
    /\ born log (d_membership d) (InitMember i) /\ member_instantiate (mk_env 1 1) i = Ok st
    /\ born log (d_funds d) (InitFunds admin en l mn) /\ funds_instantiate admin en mn l = Ok f
    (* nobody is a member, but a councillor has a reward weight ... *)
    /\ (forall u, oget (m_weights (members_of st)) u = None) /\ oget (f_weights f) 51 = Some 1
    (* ... and takes half of what is distributed *)
    /\ match funds_execute seven f 99 [(7, 100)] FDistributeNative with
       | Ok (f1, ps1) =>
           match funds_execute seven f1 51 [] (FClaim 51 [7] []) with
           | Ok (_, ps2) => ps1 = [] /\ ps2 = [mk_payment (Native 7) 51 50]
           | Err _ => False
           end
       | Err _ => False
       end.
Proof.
  exists fo, f0, 200, denom_dao, (fresh_at 2000).
  destruct (creation_accepted fo f0 200 denom_dao None (fresh_at 2000) v110 [(51, 1); (52, 1)] made_denom eq_refl
              (proj1 (proj2 (proj2 case_accepted))) (proj1 (proj2 case_made))) as [s' Hs'].
  exists s', denom_log, made_denom, denom_init.
  eexists. eexists. exists 2001, 2000, [(51, 1); (52, 1)], None.
  split; [exact Hs'|]. split.
  { assert (E : nodupb (fresh_at 2000) = true) by (vm_compute; reflexivity). apply nodupb_NoDup. exact E. }
  split; [exact (proj1 (proj2 case_made))|]. split; [reflexivity|]. split.
  { exists (Some 2000), 309. vm_compute. tauto. }
  split; [vm_compute; reflexivity|]. split.
  { exists (Some 2000), 307. vm_compute. tauto. }
  split; [vm_compute; reflexivity|]. split; [intros u; reflexivity|]. split; [vm_compute; reflexivity|].
  vm_compute. split; reflexivity.
Qed.

(** A multisig DAO: the two agree. *)
Lemma case_multisig : match fa_tx f0 (create_at 4000 multisig_dao None) with
  | Ok (_, log) => In (Created 4006 (Some 4000) 311 (InitMember (IMultisig 4000 (Some [(61, 3); (62, 4)]) [] [] [4001]))) log
      /\ In (Created 4007 (Some 4000) 307 (InitFunds 4001 4000 [(61, 3); (62, 4)] (Some 2))) log
  | Err _ => False
  end
  /\ is_ok (member_instantiate (mk_env 1 1) (IMultisig 4000 (Some [(61, 3); (62, 4)]) [] [] [4001])) = true
  /\ is_ok (funds_instantiate 4001 4000 (Some 2) [(61, 3); (62, 4)]) = true.
Proof. split; [vm_compute; tauto|]. split; vm_compute; reflexivity. Qed.

(** The imported cw3 multisig pages its voters 30 at a time; all 250 become members. *)
Lemma case_cw3 : match fa_tx f0 (create_at 6000 cw3_dao None) with
  | Ok (_, log) => born log 6006 (InitMember (IMultisig 6000 (Some voters) [] [] [6001]))
  | Err _ => False
  end /\ length voters = 250%nat.
Proof.
  split; [|reflexivity].
  assert (E : match fa_tx f0 (create_at 6000 cw3_dao None) with
              | Ok (_, log) => nth 7 log (Sent (BankSend 0 [])) = Created 6006 (Some 6000) 311 (InitMember (IMultisig 6000 (Some voters) [] [] [6001]))
                    /\ (7 < length log)%nat
              | Err _ => False end).
  { vm_compute. split; [reflexivity|lia]. }
  destruct (fa_tx f0 (create_at 6000 cw3_dao None)) as [[s log]|]; [|exact E].
  destruct E as [E L]. exists (Some 6000), 311. rewrite <- E. apply nth_In. exact L.
Qed.

(** ** C65 *)

Lemma own_token_refuted :
  exists o s sender m fresh s' log d t admin assets nfts tr,
    fa_tx s (mk_fa_call o sender (FaCreate m None) fresh) = Ok (s', log) /\ NoDup fresh /\ assigned m fresh d
    (* a token is created for the DAO ... *)
    /\ d_token d = Some t /\ (exists b mi, born log t (InitCw20 b mi))
    (* ... and is not on the list of its treasury *)
    /\ born log (d_treasury d) (InitTreasury admin assets nfts) /\ treasury_instantiate admin assets nfts = Ok tr
    /\ query_asset_whitelist tr None None = Ok [Native 7] /\ ~ listed tr (Cw20 t).
Proof.
  exists fo, f0, 200, token_dao, (fresh_at 1000).
  destruct (creation_accepted fo f0 200 token_dao None (fresh_at 1000) v110 [(51, 1); (52, 1)] made_token eq_refl
              (proj1 (proj2 case_accepted)) (proj1 case_made)) as [s' Hs'].
  exists s', (creation_log f_self f_conf v110 token_dao [(51, 1); (52, 1)] made_token), made_token, 1006, 1001, (Some [Native 7]), (Some []).
  eexists. split; [exact Hs'|]. split; [exact (proj2 (proj2 (proj2 case_made)))|]. split; [exact (proj1 case_made)|].
  split; [reflexivity|]. split.
  { eexists. eexists. exists (Some 1000), 501. vm_compute. tauto. }
  split. { exists (Some 1000), 306. vm_compute. tauto. }
  split; [vm_compute; reflexivity|]. split; [vm_compute; reflexivity|].
  vm_compute. discriminate.
Qed.
