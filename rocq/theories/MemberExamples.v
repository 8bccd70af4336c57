(** Concrete membership histories: nobody's hypotheses are empty. *)
From Verif Require Import Base OMap Assets MemberModel MemberSpec.

Definition at_block (h : N) : env := {| e_time := h * 6 * NANOS; e_height := h |}.
Definition ex_moracle : member_oracle := mk_moracle (fun u => Ok (u =? 666)) (Ok 3) (Ok (Some 60)).
Definition call (h : N) (sender : addr) (coins : list coin) (m : member_msg) : member_call :=
  mk_mcall ex_moracle (at_block h) sender coins m.
Definition get (r : res member_state) : member_state :=
  match r with Ok st => st | Err _ => MMultisig (mk_members 0 oempty snap_empty snap_empty oempty) end.

(** Token 50, one day unlocking, hooks 3 and 4, two checkpoints from before. *)
Definition tok_init : member_init := IToken 2 50 (DTime 86400) [(5, 70); (8, 90)] [(30, 70); (48, 90)] [3; 4].
Definition tok0 : member_state := get (member_instantiate (at_block 10) tok_init).
Definition tok_calls : list member_call :=
  [ call 11 50 [] (TokenMsg (TReceive 100 (HStake 101)));
    call 12 50 [] (TokenMsg (TReceive 50 (HStake 102)));
    call 12 50 [] (TokenMsg (TReceive 30 (HAddStakes [(101, 10); (103, 20)])));
    call 14 101 [] (TokenMsg (TCommon (SUnstake 40)));
    call 14 666 [] (TokenMsg (TCommon (SUnstake 1)));
    call 15 50 [] (TokenMsg (TReceive 7 (HAddClaims [(104, 7, RHeight 16)])));
    call 15 50 [] (TokenMsg (TReceive 7 (HStake 666)));
    call 16 104 [] (TokenMsg (TCommon (SClaim None))) ].
Definition tok_st : member_state := member_run tok0 tok_calls.

Definition den_init : member_init := IDenom 2 7 (DHeight 100) [3].
Definition den0 : member_state := get (member_instantiate (at_block 10) den_init).
Definition den_calls : list member_call :=
  [ call 11 101 [(7, 100)] (DenomMsg (DStake None));
    call 11 102 [(8, 100)] (DenomMsg (DStake None));
    call 12 102 [(7, 60)] (DenomMsg (DStake (Some 103)));
    call 13 101 [] (DenomMsg (DCommon (SUnstake 30)));
    call 14 101 [] (DenomMsg (DCommon (SClaim None))) ].
Definition den_st : member_state := member_run den0 den_calls.

(** An NFT contract whose collection (60) is still to arrive over ICS721. *)
Definition nft_init : member_init := INft 2 (NIcs721 9 1) (DTime 60) [] [] [3].
Definition nft0 : member_state := get (member_instantiate (at_block 10) nft_init).
Definition nft_calls : list member_call :=
  [ call 11 60 [] (NftMsg (NReceive 1 (NStake 101)));
    call 11 60 [] (NftMsg (NReceive 2 (NStake 101)));
    call 12 60 [] (NftMsg (NReceive 3 (NStake 102)));
    call 12 60 [] (NftMsg (NReceive 4 (NAddClaim 103 (RHeight 13))));
    call 12 61 [] (NftMsg (NReceive 5 (NStake 104)));
    call 13 101 [] (NftMsg (NUnstake [2; 1]));
    call 14 102 [] (NftMsg (NUnstake [3]));
    call 24 101 [] (NftMsg (NClaim None));
    call 25 60 [] (NftMsg (NReceive 2 (NStake 102))) ].
Definition nft_st : member_state := member_run nft0 nft_calls.

Definition mul_init : member_init := IMultisig 2 (Some [(101, 1); (102, 2)]) [] [] [3; 4].
Definition mul0 : member_state := get (member_instantiate (at_block 10) mul_init).
Definition mul_calls : list member_call :=
  [ call 11 3 [] (MultisigMsg (MUpdateMembers [(102, 5); (103, 1)]));
    call 12 101 [] (MultisigMsg (MSetMembers [(101, 100)]));
    call 13 3 [] (MultisigMsg (MSetMembers [(101, 4); (104, 6)])) ].
Definition mul_st : member_state := member_run mul0 mul_calls.
