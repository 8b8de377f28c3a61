(** What readers outside the chain do: decode logs and revert data by the published ABI of
    the standards (topics, selectors and layouts from ERC-20, 721, 1155, 2309, 4626, 4906,
    6093 and OpenZeppelin Contracts), knowing nothing of the library. *)
From Verif.Base Require Import Prelude Bytes.
#[global] Open Scope Z_scope.

(** Reading ABI data: the word at a byte offset, an array and a string at the offset. *)
Definition word_at (d : list Z) (off : Z) : Z := of_be (firstn 32 (skipn (Z.to_nat off) d)).
Definition array_at (d : list Z) (off : Z) : list Z :=
  map (fun i => word_at d (off + 32 + 32 * Z.of_nat i)) (seq 0 (Z.to_nat (word_at d off))).
Definition octets_at (d : list Z) (off : Z) : list Z :=
  firstn (Z.to_nat (word_at d off)) (skipn (Z.to_nat (off + 32)) d).
Definition words_in (d : list Z) : Z := Z.of_nat (length d) / 32.
Definition size_ok (d : list Z) (n : Z) : bool := Z.of_nat (length d) =? 32 * n.

(** * Events *)
Inductive decoded :=
| FungibleTransfer (from to value : Z) | FungibleApproval (owner spender value : Z)
| NftTransfer (from to id : Z) | NftApproval (owner approved id : Z) | OperatorApproval (owner operator : Z) (approved : bool)
| MultiTransfer (operator from to : Z) (ids values : list Z) | UriChanged (id : Z) (value : list Z)
| OwnerChanged (previous new : Z) | OwnerProposed (previous new : Z)
| AdminRoleChanged (role previous new : Z) | RoleGiven (role account sender : Z) | RoleTaken (role account sender : Z)
| PausedBy (account : Z) | UnpausedBy (account : Z)
| Deposited (sender owner assets shares : Z) | Withdrawn (sender receiver owner assets shares : Z)
| EtherPaid (amount : Z) | TokenPaid (token amount : Z)
| NftRange (first last from to : Z) | MetadataChanged (id : Z).

(** Topics as numbers, and the data. *)
Definition decode_topics (topics : list Z) (d : list Z) : option decoded :=
  let w i := word_at d (32 * i) in
  match topics with
  | [t] =>
      if t =? 0x62e78cea01bee320cd4e420270b5ea74000d11b0c9f74754ebdbfc544b05a258 then
        if size_ok d 1 then Some (PausedBy (w 0)) else None
      else if t =? 0x5db9ee0a495bf2e6ff9c91a7834c1ba4fdd244a5e8aa4e537bd38aeae4b073aa then
        if size_ok d 1 then Some (UnpausedBy (w 0)) else None
      else if t =? 0xda9d4e5f101b8b9b1c5b76d0c5a9f7923571acfc02376aa076b75a8c080c956b then
        if size_ok d 1 then Some (EtherPaid (w 0)) else None
      else if t =? 0xf8e1a15aba9398e019f0b49df1a4fde98ee17ae345cb5f6b5e2c27f5033e8ce7 then
        if size_ok d 1 then Some (MetadataChanged (w 0)) else None
      else None
  | [t; a] =>
      if t =? 0xc0e523490dd523c33b1878c9eb14ff46991e3f5b2cd33710918618f2a39cba1b then
        if size_ok d 1 then Some (TokenPaid a (w 0)) else None
      else if t =? 0x6bb7ff708619ba0610cba295a58592e0451dee2622938c8755667688daf3529b then
        Some (UriChanged a (octets_at d (w 0)))
      else None
  | [t; a; b] =>
      if t =? 0xddf252ad1be2c89b69c2b068fc378daa952ba7f163c4a11628f55a4df523b3ef then
        if size_ok d 1 then Some (FungibleTransfer a b (w 0)) else None
      else if t =? 0x8c5be1e5ebec7d5bd14f71427d1e84f3dd0314c0f7b2291e5b200ac8c7c3b925 then
        if size_ok d 1 then Some (FungibleApproval a b (w 0)) else None
      else if t =? 0x17307eab39ab6107e8899845ad3d59bd9653f200f220920489ca2b5937696c31 then
        if size_ok d 1 then Some (OperatorApproval a b (negb (w 0 =? 0))) else None
      else if t =? 0x8be0079c531659141344cd1fd0a4f28419497f9722a3daafe3b4186f6b6457e0 then
        if size_ok d 0 then Some (OwnerChanged a b) else None
      else if t =? 0x38d16b8cac22d99fc7c124b9cd0de2d3fa1faef420bfe791d8c362d765e22700 then
        if size_ok d 0 then Some (OwnerProposed a b) else None
      else if t =? 0xdcbc1c05240f31ff3ad067ef1ee35ce4997762752e3a095284754544f4c709d7 then
        if size_ok d 2 then Some (Deposited a b (w 0) (w 1)) else None
      else None
  | [t; a; b; c] =>
      if t =? 0xddf252ad1be2c89b69c2b068fc378daa952ba7f163c4a11628f55a4df523b3ef then
        if size_ok d 0 then Some (NftTransfer a b c) else None
      else if t =? 0x8c5be1e5ebec7d5bd14f71427d1e84f3dd0314c0f7b2291e5b200ac8c7c3b925 then
        if size_ok d 0 then Some (NftApproval a b c) else None
      else if t =? 0xc3d58168c5ae7397731d063d5bbf3d657854427343f4c083240f7aacaa2d0f62 then
        if size_ok d 2 then Some (MultiTransfer a b c [w 0] [w 1]) else None
      else if t =? 0x4a39dc06d4c0dbc64b70af90fd698a233a518aa5d07e595d983b8c0526c8f7fb then
        Some (MultiTransfer a b c (array_at d (w 0)) (array_at d (w 1)))
      else if t =? 0xbd79b86ffe0ab8e8776151514217cd7cacd52c909f66475c3af44e129f0b00ff then
        if size_ok d 0 then Some (AdminRoleChanged a b c) else None
      else if t =? 0x2f8788117e7eff1d82e926ec794901d17c78024a50270940304540a733656f0d then
        if size_ok d 0 then Some (RoleGiven a b c) else None
      else if t =? 0xf6391f5c32d9c69d2a47ea670b442974b53935d1edc7fd64eb21e047a839171b then
        if size_ok d 0 then Some (RoleTaken a b c) else None
      else if t =? 0xfbde797d201c681b91056529119e0b02407c7bb96a4a2c75c01fc9667232c8db then
        if size_ok d 2 then Some (Withdrawn a b c (w 0) (w 1)) else None
      else if t =? 0xdeaa91b6123d068f5821d0fb0678463d1a8a6079fe8af5de3ce5e896dcf9133d then
        if size_ok d 1 then Some (NftRange a (w 0) b c) else None
      else None
  | _ => None
  end.
Definition decode (topics : list (list Z)) (d : list Z) : option decoded := decode_topics (map of_be topics) d.

(** * Ledgers kept by an indexer that sees only decoded logs *)
Fixpoint indexed_balance (a : Z) (l : list decoded) : Z :=
  match l with
  | [] => 0
  | FungibleTransfer from to value :: l' =>
      (if to =? a then value else 0) - (if from =? a then value else 0) + indexed_balance a l'
  | _ :: l' => indexed_balance a l'
  end.
Fixpoint indexed_supply (l : list decoded) : Z :=
  match l with
  | [] => 0
  | FungibleTransfer from to value :: l' =>
      (if from =? 0 then value else 0) - (if to =? 0 then value else 0) + indexed_supply l'
  | _ :: l' => indexed_supply l'
  end.
(** The owner of a token after the logs, 0 for none. *)
Fixpoint indexed_owner (id : Z) (acc : Z) (l : list decoded) : Z :=
  match l with
  | [] => acc
  | NftTransfer _ to i :: l' => indexed_owner id (if i =? id then to else acc) l'
  | _ :: l' => indexed_owner id acc l'
  end.
(** The address approved for a token; a transfer clears it. *)
Fixpoint indexed_approved (id : Z) (acc : Z) (l : list decoded) : Z :=
  match l with
  | [] => acc
  | NftTransfer _ _ i :: l' => indexed_approved id (if i =? id then 0 else acc) l'
  | NftApproval _ a i :: l' => indexed_approved id (if i =? id then a else acc) l'
  | _ :: l' => indexed_approved id acc l'
  end.
Fixpoint sum_for (id : Z) (ids values : list Z) : Z :=
  match ids, values with
  | i :: ids', v :: values' => (if i =? id then v else 0) + sum_for id ids' values'
  | _, _ => 0
  end.
Fixpoint indexed_multi_balance (a id : Z) (l : list decoded) : Z :=
  match l with
  | [] => 0
  | MultiTransfer _ from to ids values :: l' =>
      (if to =? a then sum_for id ids values else 0) - (if from =? a then sum_for id ids values else 0)
      + indexed_multi_balance a id l'
  | _ :: l' => indexed_multi_balance a id l'
  end.
Fixpoint indexed_operator (o p : Z) (acc : bool) (l : list decoded) : bool :=
  match l with
  | [] => acc
  | OperatorApproval x y b :: l' => indexed_operator o p (if (x =? o) && (y =? p) then b else acc) l'
  | _ :: l' => indexed_operator o p acc l'
  end.
Fixpoint indexed_member (role account : Z) (acc : bool) (l : list decoded) : bool :=
  match l with
  | [] => acc
  | RoleGiven r a _ :: l' => indexed_member role account (if (r =? role) && (a =? account) then true else acc) l'
  | RoleTaken r a _ :: l' => indexed_member role account (if (r =? role) && (a =? account) then false else acc) l'
  | _ :: l' => indexed_member role account acc l'
  end.

Fixpoint indexed_admin (role : Z) (acc : Z) (l : list decoded) : Z :=
  match l with
  | [] => acc
  | AdminRoleChanged r _ n :: l' => indexed_admin role (if r =? role then n else acc) l'
  | _ :: l' => indexed_admin role acc l'
  end.

(** * Errors: the published selectors and layouts *)
Inductive reason :=
| ERC20InsufficientBalance (sender balance needed : Z) | ERC20InvalidSender (sender : Z) | ERC20InvalidReceiver (receiver : Z)
| ERC20InsufficientAllowance (spender allowance needed : Z) | ERC20InvalidSpender (spender : Z) | ERC20InvalidApprover (approver : Z)
| ERC721InvalidOwner (owner : Z) | ERC721NonexistentToken (id : Z) | ERC721IncorrectOwner (sender id owner : Z)
| ERC721InvalidSender (sender : Z) | ERC721InvalidReceiver (receiver : Z) | ERC721InsufficientApproval (operator id : Z)
| ERC721InvalidApprover (approver : Z) | ERC721InvalidOperator (operator : Z)
| ERC1155InsufficientBalance (sender balance needed id : Z) | ERC1155InvalidSender (sender : Z) | ERC1155InvalidReceiver (receiver : Z)
| ERC1155MissingApprovalForAll (operator owner : Z) | ERC1155InvalidOperator (operator : Z)
| ERC1155InvalidArrayLength (ids_length values_length : Z)
| OwnableUnauthorizedAccount (account : Z) | OwnableInvalidOwner (owner : Z)
| AccessControlUnauthorizedAccount (account role : Z) | AccessControlBadConfirmation
| EnforcedPause | ExpectedPause | InvalidAccountNonce (account nonce : Z) | CheckpointUnorderedInsertion
| ECDSAInvalidSignature | ECDSAInvalidSignatureS (s : Z)
| ERC2612ExpiredSignature (deadline : Z) | ERC2612InvalidSigner (signer owner : Z)
| ERC3156UnsupportedToken (token : Z) | ERC3156ExceededMaxLoan (max_loan : Z) | ERC3156InvalidReceiver (receiver : Z)
| SafeErc20FailedOperation (token : Z) | SafeErc20FailedDecreaseAllowance (spender current requested : Z)
| ERC20InvalidUnderlying (token : Z) | ERC20ExceededCap (increased_supply cap : Z)
| ERC4626ExceededMaxDeposit (receiver assets max : Z) | ERC4626ExceededMaxMint (receiver shares max : Z)
| ERC4626ExceededMaxWithdraw (owner assets max : Z) | ERC4626ExceededMaxRedeem (owner shares max : Z) | InvalidAsset (asset : Z)
| ERC2981InvalidDefaultRoyalty (numerator denominator : Z) | ERC2981InvalidDefaultRoyaltyReceiver (receiver : Z)
| ERC2981InvalidTokenRoyalty (id numerator denominator : Z) | ERC2981InvalidTokenRoyaltyReceiver (id receiver : Z)
| ERC721ExceededMaxBatchMint (batch_size max_batch : Z) | ERC721OutOfBoundsIndex (owner index : Z) | ERC721EnumerableForbiddenBatchMint
| InvalidToken (token : Z).

(** The selector and the rest of the data. *)
Definition decode_selector (sel : Z) (d : list Z) : option reason :=
  let w i := word_at d (32 * i) in
  if sel =? 0xe450d38c then if size_ok d 3 then Some (ERC20InsufficientBalance (w 0) (w 1) (w 2)) else None else
  if sel =? 0x96c6fd1e then if size_ok d 1 then Some (ERC20InvalidSender (w 0)) else None else
  if sel =? 0xec442f05 then if size_ok d 1 then Some (ERC20InvalidReceiver (w 0)) else None else
  if sel =? 0xfb8f41b2 then if size_ok d 3 then Some (ERC20InsufficientAllowance (w 0) (w 1) (w 2)) else None else
  if sel =? 0x94280d62 then if size_ok d 1 then Some (ERC20InvalidSpender (w 0)) else None else
  if sel =? 0xe602df05 then if size_ok d 1 then Some (ERC20InvalidApprover (w 0)) else None else
  if sel =? 0x89c62b64 then if size_ok d 1 then Some (ERC721InvalidOwner (w 0)) else None else
  if sel =? 0x7e273289 then if size_ok d 1 then Some (ERC721NonexistentToken (w 0)) else None else
  if sel =? 0x64283d7b then if size_ok d 3 then Some (ERC721IncorrectOwner (w 0) (w 1) (w 2)) else None else
  if sel =? 0x73c6ac6e then if size_ok d 1 then Some (ERC721InvalidSender (w 0)) else None else
  if sel =? 0x64a0ae92 then if size_ok d 1 then Some (ERC721InvalidReceiver (w 0)) else None else
  if sel =? 0x177e802f then if size_ok d 2 then Some (ERC721InsufficientApproval (w 0) (w 1)) else None else
  if sel =? 0xa9fbf51f then if size_ok d 1 then Some (ERC721InvalidApprover (w 0)) else None else
  if sel =? 0x5b08ba18 then if size_ok d 1 then Some (ERC721InvalidOperator (w 0)) else None else
  if sel =? 0x03dee4c5 then if size_ok d 4 then Some (ERC1155InsufficientBalance (w 0) (w 1) (w 2) (w 3)) else None else
  if sel =? 0x01a83514 then if size_ok d 1 then Some (ERC1155InvalidSender (w 0)) else None else
  if sel =? 0x57f447ce then if size_ok d 1 then Some (ERC1155InvalidReceiver (w 0)) else None else
  if sel =? 0xe237d922 then if size_ok d 2 then Some (ERC1155MissingApprovalForAll (w 0) (w 1)) else None else
  if sel =? 0xced3e100 then if size_ok d 1 then Some (ERC1155InvalidOperator (w 0)) else None else
  if sel =? 0x5b059991 then if size_ok d 2 then Some (ERC1155InvalidArrayLength (w 0) (w 1)) else None else
  if sel =? 0x118cdaa7 then if size_ok d 1 then Some (OwnableUnauthorizedAccount (w 0)) else None else
  if sel =? 0x1e4fbdf7 then if size_ok d 1 then Some (OwnableInvalidOwner (w 0)) else None else
  if sel =? 0xe2517d3f then if size_ok d 2 then Some (AccessControlUnauthorizedAccount (w 0) (w 1)) else None else
  if sel =? 0x6697b232 then if size_ok d 0 then Some AccessControlBadConfirmation else None else
  if sel =? 0xd93c0665 then if size_ok d 0 then Some EnforcedPause else None else
  if sel =? 0x8dfc202b then if size_ok d 0 then Some ExpectedPause else None else
  if sel =? 0x752d88c0 then if size_ok d 2 then Some (InvalidAccountNonce (w 0) (w 1)) else None else
  if sel =? 0x2520601d then if size_ok d 0 then Some CheckpointUnorderedInsertion else None else
  if sel =? 0xf645eedf then if size_ok d 0 then Some ECDSAInvalidSignature else None else
  if sel =? 0xd78bce0c then if size_ok d 1 then Some (ECDSAInvalidSignatureS (w 0)) else None else
  if sel =? 0x62791302 then if size_ok d 1 then Some (ERC2612ExpiredSignature (w 0)) else None else
  if sel =? 0x4b800e46 then if size_ok d 2 then Some (ERC2612InvalidSigner (w 0) (w 1)) else None else
  if sel =? 0xb5a7db92 then if size_ok d 1 then Some (ERC3156UnsupportedToken (w 0)) else None else
  if sel =? 0xfd9a7609 then if size_ok d 1 then Some (ERC3156ExceededMaxLoan (w 0)) else None else
  if sel =? 0x678c5b00 then if size_ok d 1 then Some (ERC3156InvalidReceiver (w 0)) else None else
  if sel =? 0x3d26bc04 then if size_ok d 1 then Some (SafeErc20FailedOperation (w 0)) else None else
  if sel =? 0x75910b84 then if size_ok d 3 then Some (SafeErc20FailedDecreaseAllowance (w 0) (w 1) (w 2)) else None else
  if sel =? 0x438d6fe3 then if size_ok d 1 then Some (ERC20InvalidUnderlying (w 0)) else None else
  if sel =? 0x9e79f854 then if size_ok d 2 then Some (ERC20ExceededCap (w 0) (w 1)) else None else
  if sel =? 0x79012fb2 then if size_ok d 3 then Some (ERC4626ExceededMaxDeposit (w 0) (w 1) (w 2)) else None else
  if sel =? 0x284ff667 then if size_ok d 3 then Some (ERC4626ExceededMaxMint (w 0) (w 1) (w 2)) else None else
  if sel =? 0xfe9cceec then if size_ok d 3 then Some (ERC4626ExceededMaxWithdraw (w 0) (w 1) (w 2)) else None else
  if sel =? 0xb94abeec then if size_ok d 3 then Some (ERC4626ExceededMaxRedeem (w 0) (w 1) (w 2)) else None else
  if sel =? 0x6f79c78a then if size_ok d 1 then Some (InvalidAsset (w 0)) else None else
  if sel =? 0x6f483d09 then if size_ok d 2 then Some (ERC2981InvalidDefaultRoyalty (w 0) (w 1)) else None else
  if sel =? 0xb6d9900a then if size_ok d 1 then Some (ERC2981InvalidDefaultRoyaltyReceiver (w 0)) else None else
  if sel =? 0xdfd1fc1b then if size_ok d 3 then Some (ERC2981InvalidTokenRoyalty (w 0) (w 1) (w 2)) else None else
  if sel =? 0x969f0852 then if size_ok d 2 then Some (ERC2981InvalidTokenRoyaltyReceiver (w 0) (w 1)) else None else
  if sel =? 0x8f58e570 then if size_ok d 2 then Some (ERC721ExceededMaxBatchMint (w 0) (w 1)) else None else
  if sel =? 0xa57d13dc then if size_ok d 2 then Some (ERC721OutOfBoundsIndex (w 0) (w 1)) else None else
  if sel =? 0x59171fc1 then if size_ok d 0 then Some ERC721EnumerableForbiddenBatchMint else None else
  if sel =? 0x961c9a4f then if size_ok d 1 then Some (InvalidToken (w 0)) else None else
  None.
Definition decode_reason (b : list Z) : option reason := decode_selector (of_be (firstn 4 b)) (skipn 4 b).
