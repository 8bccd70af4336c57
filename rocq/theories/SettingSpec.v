(** Settings are what the proposals made them: the values recounted from the proposals run and from the
    messages delivered. *)
From Verif Require Import Base OMap Assets PollModel FundsModel MemberModel MemberSpec Msgs ControllerModel TreasuryModel EnterpriseModel
  OutpostsModel WorldModel WorldSpec PurseSpec.

Definition to_be {T : Type} (old : T) (m : modify T) : T := match m with NoChange => old | Change x => x end.

(** * The rules and the council, from the proposals that were run *)

(** the actions of the proposals that were run, oldest first *)
Definition actions_of {X : Type} (w : world X) (id : N) : list proposal_action :=
  match oget (ct_proposals (w_ctl w)) id with Some p => pi_actions p | None => [] end.
Definition acts {X : Type} (A : addrs) (w : world X) : list proposal_action := flat_map (actions_of w) (rev (runs A w)).

(** what one action makes of the rules *)
Definition ruled (g : gov_config) (a : proposal_action) : gov_config :=
  match a with
  | PUpdateGovConfig u =>
      {| gc_quorum := to_be (gc_quorum g) (gu_quorum u);
         gc_threshold := to_be (gc_threshold g) (gu_threshold u);
         gc_veto_threshold := to_be (gc_veto_threshold g) (gu_veto_threshold u);
         gc_vote_duration := to_be (gc_vote_duration g) (gu_vote_duration u);
         gc_minimum_deposit := to_be (gc_minimum_deposit g) (gu_minimum_deposit u);
         gc_allow_early := to_be (gc_allow_early g) (gu_allow_early u) |}
  | _ => g
  end.

(** what one action makes of the council: a council may always propose upgrades if nothing else is said *)
Definition seated (c : option council_config) (a : proposal_action) : option council_config :=
  match a with
  | PUpdateCouncil None => None
  | PUpdateCouncil (Some s) =>
      Some {| cc_allowed := match cs_allowed s with Some l => l | None => [TUpgradeDao] end;
              cc_quorum := cs_quorum s; cc_threshold := cs_threshold s |}
  | _ => c
  end.

(** * The settings of the other contracts, from the messages delivered to them *)

(** a value followed through the log (newest first) *)
Definition followed {T : Type} (f : T -> cosmos_msg -> T) (v : T) (log : list (addr * cosmos_msg)) : T :=
  fold_right (fun x acc => f acc (snd x)) v log.

(** what a message that [m] brings to contract [a] makes of a value *)
Definition at_contract {T : Type} (a : addr) (f : T -> wasm_msg -> T) (v : T) (m : cosmos_msg) : T :=
  match m with WasmExecute to wm _ => if to =? a then f v wm else v | _ => v end.

Definition described (d : metadata) (m : wasm_msg) : metadata :=
  match m with
  | ToEnterprise (EnUpdateMetadata u) =>
      {| md_name := to_be (md_name d) (mu_name u);
         md_description := to_be (md_description d) (mu_description u);
         md_logo := to_be (md_logo d) (mu_logo u);
         md_github := to_be (md_github d) (mu_github u);
         md_discord := to_be (md_discord d) (mu_discord u);
         md_twitter := to_be (md_twitter d) (mu_twitter u);
         md_telegram := to_be (md_telegram d) (mu_telegram u) |}
  | _ => d
  end.
Definition versioned (v : N) (m : wasm_msg) : N := match m with ToEnterprise (EnUpgradeDao t _) => t | _ => v end.
Definition registered (r : addr * addr) (m : wasm_msg) : addr * addr :=
  match m with ToEnterprise (EnUpdateConfig v f) => (to_be (fst r) v, to_be (snd r) f) | _ => r end.
Definition lowered (x : N) (m : wasm_msg) : N := match m with ToFunds (FUpdateMinimum y) => y | _ => x end.
Definition timed (p : option duration) (m : wasm_msg) : option duration :=
  match m with
  | ToMembership (TokenMsg (TCommon (SUpdatePeriod (Some d)))) | ToMembership (DenomMsg (DCommon (SUpdatePeriod (Some d))))
  | ToMembership (NftMsg (NUpdatePeriod (Some d))) => Some d
  | _ => p
  end.
(** whether [h] is told of changes of weights *)
Definition hooked (h : addr) (b : bool) (m : wasm_msg) : bool :=
  match m with
  | ToMembership (TokenMsg (TCommon (SAddHook x))) | ToMembership (DenomMsg (DCommon (SAddHook x)))
  | ToMembership (NftMsg (NAddHook x)) | ToMembership (MultisigMsg (MAddHook x)) => b || (x =? h)
  | ToMembership (TokenMsg (TCommon (SRemoveHook x))) | ToMembership (DenomMsg (DCommon (SRemoveHook x)))
  | ToMembership (NftMsg (NRemoveHook x)) | ToMembership (MultisigMsg (MRemoveHook x)) => b && negb (x =? h)
  | _ => b
  end.
(** whether a denom, a token or a collection is on the lists of the treasury: additions come first *)
Definition is_native (d : N) (a : asset) : bool := match a with Native x => x =? d | _ => false end.
Definition is_cw20 (c : N) (a : asset) : bool := match a with Cw20 x => x =? c | _ => false end.
Definition listed (p : asset -> bool) (b : bool) (m : wasm_msg) : bool :=
  match m with ToTreasury (TrUpdateAssets add remove) => (b || existsb p add) && negb (existsb p remove) | _ => b end.
Definition shown (c : N) (b : bool) (m : wasm_msg) : bool :=
  match m with
  | ToTreasury (TrUpdateNfts add remove) => (b || existsb (fun x => x =? c) add) && negb (existsb (fun x => x =? c) remove)
  | _ => b
  end.

(** Everything a DAO says about itself in [w], recounted from [w0] *)
Record as_told {X : Type} (A : addrs) (w0 w : world X) : Prop := mk_as_told {
  at_metadata : en_metadata (w_enterprise w) = followed (at_contract (a_enterprise A) described) (en_metadata (w_enterprise w0)) (w_log w);
  at_version : en_version (w_enterprise w) = followed (at_contract (a_enterprise A) versioned) (en_version (w_enterprise w0)) (w_log w);
  at_registry : (en_versioning (w_enterprise w), en_factory (w_enterprise w)) =
    followed (at_contract (a_enterprise A) registered) (en_versioning (w_enterprise w0), en_factory (w_enterprise w0)) (w_log w);
  at_minimum : f_min (w_funds w) = followed (at_contract (a_funds A) lowered) (f_min (w_funds w0)) (w_log w);
  at_period : period_of (w_member w) = followed (at_contract (a_membership A) timed) (period_of (w_member w0)) (w_log w);
  at_hooks : forall h, ohas (m_hooks (members_of (w_member w))) h =
    followed (at_contract (a_membership A) (hooked h)) (ohas (m_hooks (members_of (w_member w0))) h) (w_log w);
  at_council_hooks : forall h, ohas (m_hooks (members_of (w_council w))) h =
    followed (at_contract (a_council A) (hooked h)) (ohas (m_hooks (members_of (w_council w0))) h) (w_log w);
  at_natives : forall d, ohas (tr_natives (w_treasury w)) d =
    followed (at_contract (a_treasury A) (listed (is_native d))) (ohas (tr_natives (w_treasury w0)) d) (w_log w);
  at_cw20s : forall c, ohas (tr_cw20s (w_treasury w)) c =
    followed (at_contract (a_treasury A) (listed (is_cw20 c))) (ohas (tr_cw20s (w_treasury w0)) c) (w_log w);
  at_nfts : forall c, ohas (tr_nfts (w_treasury w)) c =
    followed (at_contract (a_treasury A) (shown c)) (ohas (tr_nfts (w_treasury w0)) c) (w_log w)
}.
