(** Factory properties C48, C49 and C65. *)
From Verif Require Import Base OMap Assets PollModel FundsModel FundsSpec MemberModel MemberSpec Msgs TreasuryModel TreasurySpec
  EnterpriseModel OutpostsModel FactoryModel FactorySpec FactoryProofs FactoryFacts FactoryExamples FactoryCases.

(** C49: all that happens in a successful creation, and all that changes in the factory. *)
Theorem C49_creation_exact : forall o s sender m v fresh s' log,
  fa_tx s (mk_fa_call o sender (FaCreate m v) fresh) = Ok (s', log) ->
  exists vi w d, version_asked o s v = Ok vi /\ membership_accepted o m w /\ assigned m fresh d
    /\ registered s s' d /\ log = creation_log (fo_self o) (fa_config s) vi m w d.
Proof. exact creation_exact. Qed.
Print Assumptions C49_creation_exact.

(** ... and which requests are accepted. *)
Theorem C49_creation_accepted : forall o s sender m v fresh vi w d,
  version_asked o s v = Ok vi -> membership_accepted o m w -> assigned m fresh d ->
  exists s', fa_tx s (mk_fa_call o sender (FaCreate m v) fresh)
             = Ok (s', creation_log (fo_self o) (fa_config s) vi m w d).
Proof. exact creation_accepted. Qed.
Print Assumptions C49_creation_accepted.

Example C49_made_nonvacuous : assigned token_dao (fresh_at 1000) made_token /\ assigned denom_dao (fresh_at 2000) made_denom
  /\ assigned nft_dao (fresh_at 3000) made_nft /\ NoDup (fresh_at 1000).
Proof. exact case_made. Qed.

Example C49_accepted_nonvacuous : version_asked fo f0 None = Ok v110 /\ membership_accepted fo token_dao [(51, 1); (52, 1)]
  /\ membership_accepted fo denom_dao [(51, 1); (52, 1)] /\ membership_accepted fo multisig_dao [(61, 3); (62, 4)]
  /\ (forall w, ~ membership_accepted fo hasty_dao w).
Proof. exact case_accepted. Qed.

(** Only the DAO itself can migrate its contracts; nobody the attestation. *)
Theorem C49_migration_admin : forall self c v m w d fresh a,
  assigned m fresh d ->
  let log := creation_log self c v m w d in
  (In a (contracts d) -> d_attestation d <> Some a -> admin_after log a None = Some (Some (d_enterprise d)))
  /\ (d_attestation d = Some a -> admin_after log a None = Some None)
  /\ (~ In a (contracts d) -> admin_after log a None = None).
Proof. exact creation_admins. Qed.
Print Assumptions C49_migration_admin.

(** Each new contract is told the root contract of the same DAO and obeys its controller. *)
Theorem C49_bound_together : forall self c v m w d a i,
  born (creation_log self c v m w d) a i -> bound_to self (d_enterprise d) (d_controller d) i.
Proof. exact creation_bound. Qed.
Print Assumptions C49_bound_together.

Theorem C49_obey_controller : forall self c v m w d a i,
  born (creation_log self c v m w d) a i ->
  match i with
  | InitGovernance admin => g_admin (gov_init admin) = d_controller d
  | InitTreasury admin assets nfts => forall t, treasury_instantiate admin assets nfts = Ok t -> tr_admin t = d_controller d
  | InitFunds admin en l mn =>
      forall f, funds_instantiate admin en mn l = Ok f -> f_admin f = d_controller d /\ f_enterprise f = d_enterprise d
  | _ => True
  end.
Proof. exact creation_obey. Qed.
Print Assumptions C49_obey_controller.

Theorem C49_hooks : forall self c v m w d a i e st,
  born (creation_log self c v m w d) a (InitMember i) -> member_instantiate e i = Ok st ->
  m_enterprise (members_of st) = d_enterprise d /\ forall h, ohas (m_hooks (members_of st)) h = (h =? d_controller d).
Proof. exact creation_hooks. Qed.
Print Assumptions C49_hooks.

Example C49_created_nonvacuous : match fa_tx f0 (create_at 1000 token_dao None) with
  | Ok (s, log) => elems (fa_daos s) = [(1, 1005)] /\ length log = 12%nat
      /\ log = creation_log f_self f_conf v110 token_dao [(51, 1); (52, 1)] made_token
      /\ map (fun a => admin_after log a None) (contracts made_token)
         = repeat (Some (Some 1000)) 9 ++ [Some None]
  | Err _ => False
  end.
Proof. exact case_created. Qed.

(** The root contract accepts the wiring, which consists of the contracts created. *)
Theorem C49_root_wired : forall o s sender m v fresh s' log,
  fa_tx s (mk_fa_call o sender (FaCreate m v) fresh) = Ok (s', log) ->
  exists d, assigned m fresh d
    /\ In (Sent (WasmExecute (d_enterprise d) (ToEnterprise (EnFinalize (wiring d))) [])) log
    /\ (forall a c msg f, In (Sent (WasmExecute a (ToEnterprise msg) f)) log -> a = d_enterprise d /\ msg = EnFinalize c -> c = wiring d)
    /\ forall e f r cd t ver md x eo, born log (d_enterprise d) (InitEnterprise f r cd t ver md) ->
         enterprise_instantiate e f r cd t ver md = Ok x -> eo_creator eo = fo_self o ->
         exists x', enterprise_execute eo x (fo_self o) (EnFinalize (wiring d)) = Ok (x', [])
           /\ en_components x' = Some (wiring d) /\ en_finalized x' = true
           /\ en_type x' = requested_type (cm_membership m).
Proof. exact creation_wired. Qed.
Print Assumptions C49_root_wired.

Example C49_wired_nonvacuous : match enterprise_instantiate (mk_env 1 1) f_self 30 None DaoToken (version 1 1 0) meta0 with
  | Ok x => match enterprise_execute (mk_en_oracle 1000 f_self 0 (fun _ _ _ => Err EStd) (fun _ _ => Err EStd)) x f_self (EnFinalize (wiring made_token)) with
            | Ok (x', []) => en_components x' = Some (mk_components 1002 1001 1005 1004 1008 1007 1003 (Some 1009))
            | _ => False
            end
  | Err _ => False
  end.
Proof. exact case_wired. Qed.

(** The register: the DAOs created, numbered from 1, none ever overwritten. *)
Theorem C49_register_exact : forall c a n s0 l,
  factory_instantiate c a n = Ok s0 ->
  N.of_nat (length (treasuries_made s0 l)) < 2 ^ 64 - 1 ->
  elems (fa_daos (fa_run s0 l)) = numbered 1 (treasuries_made s0 l)
  /\ fa_counter (fa_run s0 l) = 1 + N.of_nat (length (treasuries_made s0 l)).
Proof. exact registry_exact. Qed.
Print Assumptions C49_register_exact.

Theorem C49_register_pages : forall s,
  forall limit, limit <> Some 0 ->
    let page := fun start => Ok (query_all_daos s (option_map fst start) limit) in
    pages_of (elems (fa_daos s)) (N.to_nat (N.min (dflt 50 limit) 100)) page /\
    forall fuel, (length (elems (fa_daos s)) < fuel)%nat -> read_pages fuel page None = Ok (elems (fa_daos s)).
Proof. exact dao_pages. Qed.
Print Assumptions C49_register_pages.

(** The other calls: the configuration is the admin's, the final step of a creation cannot be called from outside, the global lists stay. *)
Theorem C49_update_config_exact : forall s o sender a v c n fresh s' log,
  fa_tx s (mk_fa_call o sender (FaUpdateConfig a v c n) fresh) = Ok (s', log) <->
  sender = fc_admin (fa_config s) /\ a <> Some 0 /\ v <> Some 0 /\ log = []
  /\ s' = mk_factory (mk_fa_conf (dflt (fc_admin (fa_config s)) a) (dflt (fc_versioning (fa_config s)) v)
                        (dflt (fc_cw20 (fa_config s)) c) (dflt (fc_cw721 (fa_config s)) n))
            (fa_daos s) (fa_counter s) (fa_assets s) (fa_nfts s) (fa_code_ids s) (fa_pending s).
Proof. exact update_config_iff. Qed.
Print Assumptions C49_update_config_exact.

Theorem C49_config_admin : forall s c s' log,
  quiet s -> fa_tx s c = Ok (s', log) -> fa_config s' <> fa_config s ->
  fl_sender c = fc_admin (fa_config s) /\ exists a v x n, fl_msg c = FaUpdateConfig a v x n.
Proof. exact config_admin. Qed.
Print Assumptions C49_config_admin.

Theorem C49_finalize_internal : forall c a n s0 l o sender fresh,
  factory_instantiate c a n = Ok s0 ->
  exists e, fa_tx (fa_run s0 l) (mk_fa_call o sender FaFinalize fresh) = Err e.
Proof. exact finalize_never. Qed.
Print Assumptions C49_finalize_internal.

Theorem C49_global_lists_fixed : forall c a n s0 l,
  factory_instantiate c a n = Ok s0 ->
  fa_assets (fa_run s0 l) = dflt [] a /\ fa_nfts (fa_run s0 l) = dflt [] n /\ fa_code_ids (fa_run s0 l) = oempty.
Proof. exact fixed_lists. Qed.
Print Assumptions C49_global_lists_fixed.

Theorem C49_code_ids : forall c a n s0 l,
  factory_instantiate c a n = Ok s0 ->
  let s := fa_run s0 l in
  (forall start limit, query_code_ids s start limit = [])
  /\ forall o code, query_is_code_id o s code
       = match fo_version o (fc_versioning (fa_config s)) (version 1 0 0) with
         | Ok v => Ok (vi_treasury v =? code)
         | Err e => Err e
         end.
Proof. exact code_ids. Qed.
Print Assumptions C49_code_ids.

Example C49_register_nonvacuous : factory_instantiate f_conf (Some [Native 7; Cw20 8]) (Some [44]) = Ok f0
  /\ elems (fa_daos (fa_run f0 f_calls)) = [(1, 1005); (2, 2005); (3, 3005); (4, 4005); (5, 6005)]
  /\ map (fun n => is_ok (fa_tx (fa_run f0 (firstn n f_calls)) (nth n f_calls (create_at 0 cw3_dao None)))) (seq 0 10)
     = [true; false; true; false; true; false; true; true; false; true]
  /\ query_all_daos (fa_run f0 f_calls) (Some 2) (Some 2) = [(3, 3005); (4, 4005)]
  /\ fa_config (fa_run f0 f_calls) = mk_fa_conf 10 30 503 502.
Proof. exact case_registry. Qed.

(** C48: the weights in the membership and in the distributor at birth. In a multisig DAO they agree; in the others there are no members, but the councillors have a reward weight of 1. *)
Theorem C48_first_weights : forall o s sender m v fresh s' log,
  fa_tx s (mk_fa_call o sender (FaCreate m v) fresh) = Ok (s', log) -> NoDup fresh ->
  exists d, assigned m fresh d /\
    forall i e st admin en l mn f,
      born log (d_membership d) (InitMember i) -> member_instantiate e i = Ok st ->
      born log (d_funds d) (InitFunds admin en l mn) -> funds_instantiate admin en mn l = Ok f ->
      kind_of i = requested_type (cm_membership m) /\
      match requested_type (cm_membership m) with
      | DaoMultisig => forall u, oget (f_weights f) u = oget (m_weights (members_of st)) u
      | _ => forall u, oget (m_weights (members_of st)) u = None
               /\ oget (f_weights f) u
                  = if existsb (N.eqb u) (match cm_council m with Some c => cs_members c | None => [] end)
                    then Some 1 else None
      end.
Proof. exact first_weights. Qed.
Print Assumptions C48_first_weights.

Example C48_nonvacuous : match fa_tx f0 (create_at 4000 multisig_dao None) with
  | Ok (_, log) => In (Created 4006 (Some 4000) 311 (InitMember (IMultisig 4000 (Some [(61, 3); (62, 4)]) [] [] [4001]))) log
      /\ In (Created 4007 (Some 4000) 307 (InitFunds 4001 4000 [(61, 3); (62, 4)] (Some 2))) log
  | Err _ => False
  end
  /\ is_ok (member_instantiate (mk_env 1 1) (IMultisig 4000 (Some [(61, 3); (62, 4)]) [] [] [4001])) = true
  /\ is_ok (funds_instantiate 4001 4000 (Some 2) [(61, 3); (62, 4)]) = true.
Proof. exact case_multisig. Qed.

Theorem C48_council_leak_refuted :
  exists o s sender m fresh s' log d i st f admin en l mn,
    fa_tx s (mk_fa_call o sender (FaCreate m None) fresh) = Ok (s', log) /\ NoDup fresh /\ assigned m fresh d
    /\ requested_type (cm_membership m) = DaoDenom
    /\ born log (d_membership d) (InitMember i) /\ member_instantiate (mk_env 1 1) i = Ok st
    /\ born log (d_funds d) (InitFunds admin en l mn) /\ funds_instantiate admin en mn l = Ok f
    (* nobody is a member, but a councillor has a reward weight ... *)
    /\ (forall u, oget (m_weights (members_of st)) u = None) /\ oget (f_weights f) 51 = Some 1
    (* ... and takes half of what is distributed *)
    /\ match funds_execute seven f 99 [(7, 100)] FDistributeNative with
       | Ok (f1, ps1) =>
           match funds_execute seven f1 51 [] (FClaim 51 [7] []) with
           | Ok (_, ps2) => ps1 = [] /\ ps2 = [mk_payment (Native 7) 51 50]
           | Err _ => False
           end
       | Err _ => False
       end.
Proof. exact leak_refuted. Qed.
Print Assumptions C48_council_leak_refuted.

(** The members of a multisig DAO are the requested ones, those of an imported cw3 multisig all its voters. *)
Theorem C48_multisig_members : forall o m w l,
  membership_accepted o m w -> cm_membership m = NewMultisig l -> w = l /\ l <> [].
Proof. exact multisig_members. Qed.
Print Assumptions C48_multisig_members.

Theorem C48_cw3_imported : forall o m w c W k,
  membership_accepted o m w -> cm_membership m = ImportCw3 c -> (0 < k)%nat ->
  pages_of W k (fun start => fo_voters o c (option_map fst start) 100) -> w = W.
Proof. exact cw3_imported. Qed.
Print Assumptions C48_cw3_imported.

Example C48_cw3_nonvacuous : match fa_tx f0 (create_at 6000 cw3_dao None) with
  | Ok (_, log) => born log 6006 (InitMember (IMultisig 6000 (Some voters) [] [] [6001]))
  | Err _ => False
  end /\ length voters = 250%nat.
Proof. exact case_cw3. Qed.

(** C65: the lists of the new treasury are the requested ones; a token created for the DAO is not added. *)
Theorem C65_lists_requested : forall o s sender m v fresh s' log,
  fa_tx s (mk_fa_call o sender (FaCreate m v) fresh) = Ok (s', log) -> NoDup fresh ->
  exists d, assigned m fresh d /\
    forall admin assets nfts t, born log (d_treasury d) (InitTreasury admin assets nfts) ->
      treasury_instantiate admin assets nfts = Ok t ->
      (forall a, listed t a <-> In a (dflt [] (cm_assets m))) /\ (forall n, nft_listed t n <-> In n (dflt [] (cm_nfts m))).
Proof. exact new_treasury_lists. Qed.
Print Assumptions C65_lists_requested.

Theorem C65_own_token_refuted :
  exists o s sender m fresh s' log d t admin assets nfts tr,
    fa_tx s (mk_fa_call o sender (FaCreate m None) fresh) = Ok (s', log) /\ NoDup fresh /\ assigned m fresh d
    (* a token is created for the DAO ... *)
    /\ d_token d = Some t /\ (exists b mi, born log t (InitCw20 b mi))
    (* ... and is not on the list of its treasury *)
    /\ born log (d_treasury d) (InitTreasury admin assets nfts) /\ treasury_instantiate admin assets nfts = Ok tr
    /\ query_asset_whitelist tr None None = Ok [Native 7] /\ ~ listed tr (Cw20 t).
Proof. exact own_token_refuted. Qed.
Print Assumptions C65_own_token_refuted.
