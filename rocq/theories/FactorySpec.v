(** Vocabulary for the properties of the factory. *)
From Verif Require Import Base OMap Assets MemberModel Msgs EnterpriseModel OutpostsModel FactoryModel.

(** The contracts of one DAO; [d_token]: a token or NFT contract created along with it. *)
Record made := mk_made {
  d_enterprise : addr;
  d_controller : addr;
  d_governance : addr;
  d_council : addr;
  d_outposts : addr;
  d_treasury : addr;
  d_token : option addr;
  d_membership : addr;
  d_funds : addr;
  d_attestation : option addr
}.

Definition opt {A} (x : option A) : list A := match x with Some a => [a] | None => [] end.

(** All of them, in the order in which they are instantiated. *)
Definition contracts (d : made) : list addr :=
  [d_enterprise d; d_controller d; d_governance d; d_council d; d_outposts d; d_treasury d]
    ++ opt (d_token d) ++ [d_membership d; d_funds d] ++ opt (d_attestation d).

(** Is a new token or NFT contract wanted? *)
Definition wants_token (m : membership_spec) : bool :=
  match m with NewCw20 _ _ _ _ | NewCw721 _ _ => true | _ => false end.

(** An unlocking period given as a time is at least as long as a vote. *)
Definition period_ok (g : gov_config) (p : duration) : Prop :=
  match p with DTime t => gc_vote_duration g <= t | DHeight _ => True end.

(** The type of the DAO asked for. *)
Definition requested_type (m : membership_spec) : dao_type :=
  match m with
  | NewDenom _ _ => DaoDenom
  | ImportCw20 _ _ | NewCw20 _ _ _ _ => DaoToken
  | ImportCw721 _ _ | NewCw721 _ _ | NewIcs721 _ _ _ => DaoNft
  | ImportCw3 _ | NewMultisig _ => DaoMultisig
  end.

(** The list [l] a cw3 contract gives when asked for page after page of 100 voters, each time after the last
    one seen, until a page is empty; [n] pages are asked for. *)
Inductive voters_from (ask : option N -> res (list (N * N))) : option N -> nat -> list (N * N) -> Prop :=
| voters_end start : ask start = Ok [] -> voters_from ask start 1 []
| voters_page start page u w n l :
    ask start = Ok (page ++ [(u, w)]) -> voters_from ask (Some u) n l ->
    voters_from ask start (S n) (page ++ [(u, w)] ++ l).

Definition sum_weights (l : list (N * N)) : N := fold_right (fun uw t => snd uw + t) 0 l.

(** The councillors of the DAO, one vote each. *)
Definition councillors (m : create_msg) : list (N * N) :=
  map (fun u => (u, 1)) (match cm_council m with Some c => cs_members c | None => [] end).

(** When the wanted membership is accepted, and the weights [w] the funds distributor starts with. *)
Definition membership_accepted (o : fa_oracle) (m : create_msg) (w : list (N * N)) : Prop :=
  match cm_membership m with
  | NewDenom _ p | NewCw721 _ p | NewIcs721 _ _ p => period_ok (cm_gov m) p /\ w = councillors m
  | ImportCw20 t p =>
      t <> 0 /\ (exists supply, fo_supply o t = Ok supply /\ (supply <> 0 \/ fo_minter o t = Ok true))
      /\ period_ok (cm_gov m) p /\ w = councillors m
  | NewCw20 b d mi p =>
      d <> Some 0 /\ (forall x, In x b -> snd x <> 0) /\ (b <> [] \/ mi <> None)
      /\ period_ok (cm_gov m) p /\ w = councillors m
  | ImportCw721 c p => fo_tokens o c = Ok tt /\ period_ok (cm_gov m) p /\ w = councillors m
  | ImportCw3 c =>
      c <> 0 /\ (exists page, fo_voters o c None 10 = Ok page)
      /\ (exists n, voters_from (fun start => fo_voters o c start 100) None n w /\ (n <= fo_fuel o)%nat)
      /\ sum_weights w < M128 /\ sum_weights w <> 0
  | NewMultisig l => l <> [] /\ w = l
  end.

(** What is instantiated for the membership. *)
Definition membership_log (c : fa_conf) (v : version_info) (m : membership_spec) (w : list (N * N)) (d : made)
  : list effect :=
  let en := d_enterprise d in
  let hooks := [d_controller d] in
  let member code i := Created (d_membership d) (Some en) code (InitMember i) in
  match m with
  | NewDenom dn p => [member (vi_denom v) (IDenom en dn p hooks)]
  | ImportCw20 t p => [member (vi_token v) (IToken en t p [] [] hooks)]
  | NewCw20 b db mi p =>
      match d_token d with
      | Some t => [Created t (Some en) (fc_cw20 c)
                     (InitCw20 (b ++ map (fun x => (d_treasury d, x)) (opt db)) (dflt en mi));
                   member (vi_token v) (IToken en t p [] [] hooks)]
      | None => []
      end
  | ImportCw721 n p => [member (vi_nft v) (INft en (NCw721 n) p [] [] hooks)]
  | NewCw721 mi p =>
      match d_token d with
      | Some t => [Created t (Some en) (fc_cw721 c) (InitCw721 (dflt en mi));
                   member (vi_nft v) (INft en (NCw721 t) p [] [] hooks)]
      | None => []
      end
  | NewIcs721 n k p => [member (vi_nft v) (INft en (NIcs721 n k) p [] [] hooks)]
  | ImportCw3 _ | NewMultisig _ => [member (vi_multisig v) (IMultisig en (Some w) [] [] hooks)]
  end.

(** The wiring handed to the enterprise contract. *)
Definition wiring (d : made) : components :=
  mk_components (d_governance d) (d_controller d) (d_treasury d) (d_outposts d) (d_funds d) (d_membership d)
    (d_council d) (d_attestation d).

(** Everything that happens in the creation of a DAO. *)
Definition creation_log (self : addr) (c : fa_conf) (v : version_info) (m : create_msg) (w : list (N * N)) (d : made)
  : list effect :=
  let en := d_enterprise d in
  let ctl := d_controller d in
  [Created en (Some self) (vi_enterprise v)
     (InitEnterprise self (fc_versioning c) None (requested_type (cm_membership m)) (vi_version v) (cm_metadata m));
   Sent (WasmUpdateAdmin en en);
   Created ctl (Some en) (vi_controller v)
     (InitController en (requested_type (cm_membership m)) (cm_gov m) (cm_council m) (cm_treasuries m));
   Created (d_governance d) (Some en) (vi_governance v) (InitGovernance ctl);
   Created (d_council d) (Some en) (vi_multisig v) (InitMember (IMultisig en (Some (councillors m)) [] [] [ctl]));
   Created (d_outposts d) (Some en) (vi_outposts v) (InitOutposts en);
   Created (d_treasury d) (Some en) (vi_treasury v)
     (InitTreasury ctl (Some (dflt [] (cm_assets m))) (Some (dflt [] (cm_nfts m))))]
  ++ membership_log c v (cm_membership m) w d
  ++ [Created (d_funds d) (Some en) (vi_funds v) (InitFunds ctl en w (cm_minimum m))]
  ++ (match cm_attestation m, d_attestation d with
      | Some t, Some a => [Created a None (vi_attestation v) (InitAttestation t)]
      | _, _ => []
      end)
  ++ [Sent (WasmExecute en (ToEnterprise (EnFinalize (wiring d))) [])]
  ++ (match cm_treasuries m with
      | None | Some [] => []
      | Some l => [Sent (BankSend (d_outposts d) [(ULUNA, N.of_nat (length l))]);
                   Sent (WasmExecute ctl (ToController CDeployInitial) [])]
      end).

(** The registry's answer to the question which code to use. *)
Definition version_asked (o : fa_oracle) (s : factory) (v : option N) : res version_info :=
  match v with
  | None => fo_latest o (fc_versioning (fa_config s))
  | Some v => fo_version o (fc_versioning (fa_config s)) v
  end.

(** The addresses the chain assigns become those of the DAO. *)
Definition assigned (m : create_msg) (fresh : list addr) (d : made) : Prop :=
  (exists rest, fresh = contracts d ++ rest) /\ (forall a, In a (contracts d) -> a <> 0)
  /\ is_some (d_token d) = wants_token (cm_membership m)
  /\ is_some (d_attestation d) = is_some (cm_attestation m).

(** The factory after it: the DAO is registered under the next id, nothing is pending, the rest is as before. *)
Definition registered (s s' : factory) (d : made) : Prop :=
  fa_daos s' = oset (fa_daos s) (fa_counter s) (d_treasury d)
  /\ fa_counter s' = (fa_counter s + 1) mod 2 ^ 64
  /\ fa_pending s' = Some no_pending
  /\ fa_config s' = fa_config s /\ fa_assets s' = fa_assets s /\ fa_nfts s' = fa_nfts s
  /\ fa_code_ids s' = fa_code_ids s.

(** [a] was instantiated with [i]. *)
Definition born (log : list effect) (a : addr) (i : init_msg) : Prop :=
  exists admin code, In (Created a admin code i) log.

(** Who may migrate the contract at [a] after all of this, if it was created in it: the chain's record of the admin,
    set at instantiation and by UpdateAdmin. *)
Fixpoint admin_after (log : list effect) (a : addr) (now : option (option N)) : option (option N) :=
  match log with
  | [] => now
  | Created b admin _ _ :: log => admin_after log a (if b =? a then Some admin else now)
  | Sent (WasmUpdateAdmin b x) :: log => admin_after log a (if b =? a then Some (Some x) else now)
  | _ :: log => admin_after log a now
  end.

(** The treasuries instantiated in a log. *)
Definition treasuries_in (log : list effect) : list addr :=
  flat_map (fun e => match e with Created a _ _ (InitTreasury _ _ _) => [a] | _ => [] end) log.

(** The treasuries of all DAOs created by a list of calls, in order. *)
Fixpoint treasuries_made (s : factory) (l : list fa_call) : list addr :=
  match l with
  | [] => []
  | c :: l =>
      match fa_tx s c with
      | Ok (s', log) => treasuries_in log ++ treasuries_made s' l
      | Err _ => treasuries_made s l
      end
  end.

(** [1, a1], [2, a2], ... *)
Fixpoint numbered (n : N) (l : list addr) : list (N * addr) :=
  match l with [] => [] | a :: l => (n, a) :: numbered (n + 1) l end.

(** The contract administered and reported to by a new contract, and the root contract it trusts. *)
Definition bound_to (self en ctl : addr) (i : init_msg) : Prop :=
  match i with
  | InitEnterprise factory _ creation _ _ _ => factory = self /\ creation = None
  | InitController e _ _ _ _ => e = en
  | InitGovernance admin => admin = ctl
  | InitTreasury admin _ _ => admin = ctl
  | InitOutposts e => e = en
  | InitFunds admin e _ _ => admin = ctl /\ e = en
  | InitMember (IToken e _ _ bh bs hooks) | InitMember (INft e _ _ bh bs hooks)
  | InitMember (IMultisig e _ bh bs hooks) => e = en /\ bh = [] /\ bs = [] /\ hooks = [ctl]
  | InitMember (IDenom e _ _ hooks) => e = en /\ hooks = [ctl]
  | InitAttestation _ | InitCw20 _ _ | InitCw721 _ => True
  | InitProxy _ => False
  end.

(** The kind of membership a DAO of the type has. *)
Definition kind_of (i : member_init) : dao_type :=
  match i with
  | IToken _ _ _ _ _ _ => DaoToken
  | IDenom _ _ _ _ => DaoDenom
  | INft _ _ _ _ _ _ => DaoNft
  | IMultisig _ _ _ _ _ => DaoMultisig
  end.

(** Between transactions nothing is pending. *)
Definition quiet (s : factory) : Prop := fa_pending s = None \/ fa_pending s = Some no_pending.
