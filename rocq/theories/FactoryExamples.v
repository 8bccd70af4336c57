(** A concrete factory and the DAOs it creates. *)
From Verif Require Import Base OMap Assets MemberModel Msgs EnterpriseModel OutpostsModel FactoryModel FactorySpec.

Definition f_self : addr := 31.
Definition f_conf : fa_conf := mk_fa_conf 9 30 501 502.
Definition f0 : factory := mk_factory f_conf oempty 1 [Native 7; Cw20 8] [44] oempty None.
Definition v100 : version_info := mk_version_info (version 1 0 0) 0 201 202 203 204 205 206 207 208 209 210 211.
Definition v110 : version_info := mk_version_info (version 1 1 0) 0 301 302 303 304 305 306 307 308 309 310 311.

(** A cw3 multisig with 250 voters, listed at most 30 at a time. *)
Definition voters : list (N * N) := map (fun i => (N.of_nat i, 1 + N.of_nat i mod 5)) (seq 1000 250).
Definition list_voters (start : option N) (limit : N) : list (N * N) :=
  firstn (N.to_nat (N.min limit 30)) (match start with
                                      | None => voters
                                      | Some a => filter (fun x => a <? fst x) voters
                                      end).

Definition fo : fa_oracle :=
  mk_fa_oracle f_self (fun r => if r =? 30 then Ok v110 else Err EStd)
    (fun r v => if negb (r =? 30) then Err EStd else if v =? version 1 0 0 then Ok v100 else if v =? version 1 1 0 then Ok v110 else Err ENotFound)
    (fun t => if t =? 8 then Ok 1000 else if t =? 77 then Ok 0 else Err EStd)
    (fun t => if t =? 8 then Ok true else Ok false)
    (fun c => if c =? 44 then Ok tt else Err EStd)
    (fun c start limit => if c =? 60 then Ok (list_voters start limit) else Err EStd) 30.

Definition gov0 : gov_config := mk_gov_config 300000000000000000 500000000000000000 None 1000 None true.
Definition council0 : council_spec := mk_council_spec [51; 52] 500000000000000000 500000000000000000 None.
Definition meta0 : metadata := mk_metadata 100 None None None None None None.

(** A DAO with a token of its own, a council and an attestation. *)
Definition token_dao : create_msg :=
  mk_create meta0 gov0 (Some council0) (NewCw20 [(61, 10); (62, 20)] (Some 5) None (DTime 2000)) (Some [Native 7]) None None None (Some 5).
(** A DAO staking a denom, with a council. *)
Definition denom_dao : create_msg :=
  mk_create meta0 gov0 (Some council0) (NewDenom 7 (DTime 2000)) None None None None None.
(** The same with an unlocking period shorter than a vote. *)
Definition hasty_dao : create_msg :=
  mk_create meta0 gov0 (Some council0) (NewDenom 7 (DTime 999)) None None None None None.
(** A DAO with an NFT collection of its own, and treasuries on two other chains. *)
Definition nft_dao : create_msg :=
  mk_create meta0 gov0 None (NewCw721 (Some 70) (DHeight 5)) None (Some [44]) None
    (Some [mk_deploy_spec (mk_cross_spec 70 2 11 12 13 14 15 None) None None 801 802 900;
           mk_deploy_spec (mk_cross_spec 71 3 11 22 13 24 25 (Some 60)) None None 801 802 910]) None.
(** Multisig DAOs. *)
Definition multisig_dao : create_msg :=
  mk_create meta0 gov0 (Some council0) (NewMultisig [(61, 3); (62, 4)]) None None (Some 2) None None.
Definition cw3_dao : create_msg := mk_create meta0 gov0 None (ImportCw3 60) None None None None None.

Definition fresh_at (n : N) : list addr := map (fun i => n + N.of_nat i) (seq 0 12).
Definition create_at (n : N) (m : create_msg) (v : option N) : fa_call := mk_fa_call fo 200 (FaCreate m v) (fresh_at n).

(** The contracts of the first three. *)
Definition made_token : made := mk_made 1000 1001 1002 1003 1004 1005 (Some 1006) 1007 1008 (Some 1009).
Definition made_denom : made := mk_made 2000 2001 2002 2003 2004 2005 None 2006 2007 None.
Definition made_nft : made := mk_made 3000 3001 3002 3003 3004 3005 (Some 3006) 3007 3008 None.

Definition f_calls : list fa_call :=
  [create_at 1000 token_dao None;
   create_at 1500 hasty_dao None;
   create_at 2000 denom_dao (Some (version 1 0 0));
   mk_fa_call fo 10 (FaUpdateConfig (Some 10) None None None) [];
   mk_fa_call fo 9 (FaUpdateConfig (Some 10) None (Some 503) None) [];
   mk_fa_call fo f_self FaFinalize [];
   create_at 3000 nft_dao None;
   create_at 4000 multisig_dao None;
   create_at 5000 cw3_dao (Some (version 1 2 0));
   create_at 6000 cw3_dao None].
