(** * Pow: the block level of the proof-of-work forks.

    Models what src/ethereum/{frontier, homestead, dao_fork, tangerine_whistle,
    spurious_dragon, byzantium, constantinople, istanbul, muir_glacier, berlin,
    london, arrow_glacier, gray_glacier} do outside the virtual machine:
    fork.py without the execution of transactions, [create_ether] of state.py
    and dao_fork/dao.py.

    - The functions are textually the same in all 13 forks up to the cases in
      [pow_fork] below; lines are those of gray_glacier unless another fork
      is named.
    - The execution of the transactions of a block ([process_transaction] in a
      loop) is a parameter [execute]; it returns what the header is compared
      with and the state.
    - A header before London has no base fee ([None]); reading the base fee of
      such a header raises AttributeError.
    - [modify_state] of these forks does not destroy empty accounts.
    - frontier/fork.py:770 adds an [int] to a [Uint]; this is taken to be
      the addition of numbers. *)
From Verif Require Import Base State Rlp Vm Transactions Trie Blocks Requests Fork Ethash.

(** src/ethereum/gray_glacier/blocks.py:31-181; fields in the order of their encoding *)
Record pow_header := PowHeader {
  ph_parent_hash : bytes;
  ph_ommers_hash : bytes;
  ph_coinbase : address;
  ph_state_root : bytes;
  ph_transactions_root : bytes;
  ph_receipt_root : bytes;
  ph_bloom : bytes;
  ph_difficulty : N;
  ph_number : N;
  ph_gas_limit : N;
  ph_gas_used : N;
  ph_timestamp : N;
  ph_extra_data : bytes;
  ph_mix_digest : bytes;
  ph_nonce : bytes;
  ph_base_fee_per_gas : option N;
}.

(** The fields before [mix_digest] *)
Definition pow_fields (h : pow_header) : list rlp :=
  [RBytes (ph_parent_hash h); RBytes (ph_ommers_hash h); RAddress (ph_coinbase h);
   RBytes (ph_state_root h); RBytes (ph_transactions_root h); RBytes (ph_receipt_root h);
   RBytes (ph_bloom h); RUint (ph_difficulty h); RUint (ph_number h); RUint (ph_gas_limit h);
   RUint (ph_gas_used h); RUint (ph_timestamp h); RBytes (ph_extra_data h)].
Definition pow_fee (h : pow_header) : list rlp :=
  match ph_base_fee_per_gas h with Some f => [RUint f] | None => [] end.
(** [rlp.encode(header)] *)
Definition pow_header_rlp (h : pow_header) : rlp :=
  RList (pow_fields h ++ [RBytes (ph_mix_digest h); RBytes (ph_nonce h)] ++ pow_fee h).

(** ** The forks *)

(** Which [calculate_block_difficulty] *)
Inductive difficulty_rule :=
| FrontierRule
| HomesteadRule
| ByzantiumRule (bomb_delay_blocks : N).

Record pow_fork := PowFork {
  pf_rule : difficulty_rule;
  pf_block_reward : N;
  (** [FORK_CRITERIA.block_number] of the DAO fork *)
  pf_dao_block : option N;
  (** whether headers have a base fee *)
  pf_base_fee : bool;
  (** London: its first block *)
  pf_london_block : option N;
}.

Definition ETHER : N := 10 ^ 18.
(** Lines of [BLOCK_REWARD] and [BOMB_DELAY_BLOCKS]: frontier/fork.py:55,
    homestead:55, dao_fork:57, tangerine_whistle:54, spurious_dragon:56,
    byzantium:56,61, constantinople:56,61, istanbul:56,61, muir_glacier:56,61,
    berlin:61,66, london:67,75, arrow_glacier:67,74, gray_glacier:67,74; first
    blocks: dao_fork/__init__.py:9, london/__init__.py:8 *)
Definition frontier := PowFork FrontierRule (5 * ETHER) None false None.
Definition homestead := PowFork HomesteadRule (5 * ETHER) None false None.
Definition dao_fork := PowFork HomesteadRule (5 * ETHER) (Some 1920000) false None.
Definition tangerine_whistle := homestead.
Definition spurious_dragon := homestead.
Definition byzantium := PowFork (ByzantiumRule 3000000) (3 * ETHER) None false None.
Definition constantinople := PowFork (ByzantiumRule 5000000) (2 * ETHER) None false None.
Definition istanbul := constantinople.
Definition muir_glacier := PowFork (ByzantiumRule 9000000) (2 * ETHER) None false None.
Definition berlin := muir_glacier.
Definition london := PowFork (ByzantiumRule 9700000) (2 * ETHER) None true (Some 12965000).
Definition arrow_glacier := PowFork (ByzantiumRule 10700000) (2 * ETHER) None true None.
Definition gray_glacier := PowFork (ByzantiumRule 11400000) (2 * ETHER) None true None.
Definition pow_forks : list pow_fork :=
  [frontier; homestead; dao_fork; tangerine_whistle; spurious_dragon; byzantium; constantinople;
   istanbul; muir_glacier; berlin; london; arrow_glacier; gray_glacier].

Definition MINIMUM_DIFFICULTY : N := 131072.
Definition MAX_OMMER_DEPTH : N := 6.
(** london/fork.py:73 *)
Definition INITIAL_BASE_FEE : N := 1000000000.

(** ** Difficulty *)

(** The exponent and the addition of the bomb *)
Definition add_bomb (difficulty : Z) (num_bomb_periods : Z) : Z :=
  if (0 <=? num_bomb_periods)%Z then (difficulty + 2 ^ num_bomb_periods)%Z else difficulty.

(** frontier/fork.py:725-776 *)
Definition frontier_difficulty (block_number block_timestamp parent_timestamp parent_difficulty : N)
  : outcome N :=
  let max_adjustment_delta := parent_difficulty / 2048 in
  t <~ u256 (parent_timestamp + 13) ;;
  difficulty <~ (if block_timestamp <? t then Done (parent_difficulty + max_adjustment_delta)
                 else usub parent_difficulty max_adjustment_delta) ;;
  let difficulty := add_bomb (Z.of_N difficulty) (Z.of_N block_number / 100000 - 2) in
  Done (Z.to_N (Z.max difficulty (Z.of_N MINIMUM_DIFFICULTY))).

(** homestead/fork.py:725-785 *)
Definition homestead_difficulty (block_number block_timestamp parent_timestamp parent_difficulty : N)
  : outcome N :=
  dt <~ usub block_timestamp parent_timestamp ;;
  let offset := (Z.of_N parent_difficulty / 2048 * Z.max (1 - Z.of_N dt / 10) (-99))%Z in
  let difficulty := (Z.of_N parent_difficulty + offset)%Z in
  let difficulty := add_bomb difficulty (Z.of_N block_number / 100000 - 2) in
  Done (Z.to_N (Z.max difficulty (Z.of_N MINIMUM_DIFFICULTY))).

(** src/ethereum/gray_glacier/fork.py:873-940 *)
Definition byzantium_difficulty (bomb_delay_blocks : N)
    (block_number block_timestamp parent_timestamp parent_difficulty : N) (parent_has_ommers : bool)
  : outcome N :=
  dt <~ usub block_timestamp parent_timestamp ;;
  let offset := (Z.of_N parent_difficulty / 2048
                 * Z.max ((if parent_has_ommers then 2 else 1) - Z.of_N dt / 9) (-99))%Z in
  let difficulty := (Z.of_N parent_difficulty + offset)%Z in
  let difficulty :=
    add_bomb difficulty ((Z.of_N block_number - Z.of_N bomb_delay_blocks) / 100000 - 2) in
  Done (Z.to_N (Z.max difficulty (Z.of_N MINIMUM_DIFFICULTY))).

Definition calculate_block_difficulty (rule : difficulty_rule)
    (block_number block_timestamp parent_timestamp parent_difficulty : N) (parent_has_ommers : bool)
  : outcome N :=
  match rule with
  | FrontierRule =>
      frontier_difficulty block_number block_timestamp parent_timestamp parent_difficulty
  | HomesteadRule =>
      homestead_difficulty block_number block_timestamp parent_timestamp parent_difficulty
  | ByzantiumRule delay =>
      byzantium_difficulty delay block_number block_timestamp parent_timestamp parent_difficulty
        parent_has_ommers
  end.

(** ** State *)

(** src/ethereum/gray_glacier/state.py:441-447 *)
Definition modify_account (s : state) (a : address) (f : account -> result account) : result state :=
  match f (get_account s a) with
  | Raise c => Raise c
  | Ok acc => Ok (set_account s a (Some acc))
  end.

(** src/ethereum/gray_glacier/state.py:551-568 *)
Definition create_ether (s : state) (a : address) (amount : N) : result state :=
  modify_account s a (increase_recipient_balance amount).

(** src/ethereum/dao_fork/state.py:377-396 *)
Definition move_ether_pow (s : state) (sender recipient : address) (amount : N) : result state :=
  match modify_account s sender (reduce_sender_balance amount) with
  | Raise c => Raise c
  | Ok s => modify_account s recipient (increase_recipient_balance amount)
  end.

(** src/ethereum/dao_fork/dao.py:21-140 *)
Definition DAO_ACCOUNTS : list address :=
  [0xd4fe7bc31cedb7bfb8a345f31e668033056b2728; 0xb3fb0e5aba0e20e5c49d252dfd30e102b171a425;
   0x2c19c7f9ae8b751e37aeb2d93a699722395ae18f; 0xecd135fa4f61a655311e86238c92adcd779555d2;
   0x1975bd06d486162d5dc297798dfc41edd5d160a7; 0xa3acf3a1e16b1d7c315e23510fdd7847b48234f6;
   0x319f70bab6845585f412ec7724b744fec6095c85; 0x06706dd3f2c9abf0a21ddcc6941d9b86f0596936;
   0x5c8536898fbb74fc7445814902fd08422eac56d0; 0x6966ab0d485353095148a2155858910e0965b6f9;
   0x779543a0491a837ca36ce8c635d6154e3c4911a6; 0x2a5ed960395e2a49b1c758cef4aa15213cfd874c;
   0x5c6e67ccd5849c0d29219c4f95f1a7a93b3f5dc5; 0x9c50426be05db97f5d64fc54bf89eff947f0a321;
   0x200450f06520bdd6c527622a273333384d870efb; 0xbe8539bfe837b67d1282b2b1d61c3f723966f049;
   0x6b0c4d41ba9ab8d8cfb5d379c69a612f2ced8ecb; 0xf1385fb24aad0cd7432824085e42aff90886fef5;
   0xd1ac8b1ef1b69ff51d1d401a476e7e612414f091; 0x8163e7fb499e90f8544ea62bbf80d21cd26d9efd;
   0x51e0ddd9998364a2eb38588679f0d2c42653e4a6; 0x627a0a960c079c21c34f7612d5d230e01b4ad4c7;
   0xf0b1aa0eb660754448a7937c022e30aa692fe0c5; 0x24c4d950dfd4dd1902bbed3508144a54542bba94;
   0x9f27daea7aca0aa0446220b98d028715e3bc803d; 0xa5dc5acd6a7968a4554d89d65e59b7fd3bff0f90;
   0xd9aef3a1e38a39c16b31d1ace71bca8ef58d315b; 0x63ed5a272de2f6d968408b4acb9024f4cc208ebf;
   0x6f6704e5a10332af6672e50b3d9754dc460dfa4d; 0x77ca7b50b6cd7e2f3fa008e24ab793fd56cb15f6;
   0x492ea3bb0f3315521c31f273e565b868fc090f17; 0x0ff30d6de14a8224aa97b78aea5388d1c51c1f00;
   0x9ea779f907f0b315b364b0cfc39a0fde5b02a416; 0xceaeb481747ca6c540a000c1f3641f8cef161fa7;
   0xcc34673c6c40e791051898567a1222daf90be287; 0x579a80d909f346fbfb1189493f521d7f48d52238;
   0xe308bd1ac5fda103967359b2712dd89deffb7973; 0x4cb31628079fb14e4bc3cd5e30c2f7489b00960c;
   0xac1ecab32727358dba8962a0f3b261731aad9723; 0x4fd6ace747f06ece9c49699c7cabc62d02211f75;
   0x440c59b325d2997a134c2c7c60a8c61611212bad; 0x4486a3d68fac6967006d7a517b889fd3f98c102b;
   0x9c15b54878ba618f494b38f0ae7443db6af648ba; 0x27b137a85656544b1ccb5a0f2e561a5703c6a68f;
   0x21c7fdb9ed8d291d79ffd82eb2c4356ec0d81241; 0x23b75c2f6791eef49c69684db4c6c1f93bf49a50;
   0x1ca6abd14d30affe533b24d7a21bff4c2d5e1f3b; 0xb9637156d330c0d605a791f1c31ba5890582fe1c;
   0x6131c42fa982e56929107413a9d526fd99405560; 0x1591fc0f688c81fbeb17f5426a162a7024d430c2;
   0x542a9515200d14b68e934e9830d91645a980dd7a; 0xc4bbd073882dd2add2424cf47d35213405b01324;
   0x782495b7b3355efb2833d56ecb34dc22ad7dfcc4; 0x58b95c9a9d5d26825e70a82b6adb139d3fd829eb;
   0x3ba4d81db016dc2890c81f3acec2454bff5aada5; 0xb52042c8ca3f8aa246fa79c3feaa3d959347c0ab;
   0xe4ae1efdfc53b73893af49113d8694a057b9c0d1; 0x3c02a7bc0391e86d91b7d144e61c2c01a25a79c5;
   0x0737a6b837f97f46ebade41b9bc3e1c509c85c53; 0x97f43a37f595ab5dd318fb46e7a155eae057317a;
   0x52c5317c848ba20c7504cb2c8052abd1fde29d03; 0x4863226780fe7c0356454236d3b1c8792785748d;
   0x5d2b2e6fcbe3b11d26b525e085ff818dae332479; 0x5f9f3392e9f62f63b8eac0beb55541fc8627f42c;
   0x057b56736d32b86616a10f619859c6cd6f59092a; 0x9aa008f65de0b923a2a4f02012ad034a5e2e2192;
   0x304a554a310c7e546dfe434669c62820b7d83490; 0x914d1b8b43e92723e64fd0a06f5bdb8dd9b10c79;
   0x4deb0033bb26bc534b197e61d19e0733e5679784; 0x07f5c1e1bc2c93e0402f23341973a0e043f7bf8a;
   0x35a051a0010aba705c9008d7a7eff6fb88f6ea7b; 0x4fa802324e929786dbda3b8820dc7834e9134a2a;
   0x9da397b9e80755301a3b32173283a91c0ef6c87e; 0x8d9edb3054ce5c5774a420ac37ebae0ac02343c6;
   0x0101f3be8ebb4bbd39a2e3b9a3639d4259832fd9; 0x5dc28b15dffed94048d73806ce4b7a4612a1d48f;
   0xbcf899e6c7d9d5a215ab1e3444c86806fa854c76; 0x12e626b0eebfe86a56d633b9864e389b45dcb260;
   0xa2f1ccba9395d7fcb155bba8bc92db9bafaeade7; 0xec8e57756626fdc07c63ad2eafbd28d08e7b0ca5;
   0xd164b088bd9108b60d0ca3751da4bceb207b0782; 0x6231b6d0d5e77fe001c2a460bd9584fee60d409b;
   0x1cba23d343a983e9b5cfd19496b9a9701ada385f; 0xa82f360a8d3455c5c41366975bde739c37bfeb8a;
   0x9fcd2deaff372a39cc679d5c5e4de7bafb0b1339; 0x005f5cee7a43331d5a3d3eec71305925a62f34b6;
   0x0e0da70933f4c7849fc0d203f5d1d43b9ae4532d; 0xd131637d5275fd1a68a3200f4ad25c71a2a9522e;
   0xbc07118b9ac290e4622f5e77a0853539789effbe; 0x47e7aa56d6bdf3f36be34619660de61275420af8;
   0xacd87e28b0c9d1254e868b81cba4cc20d9a32225; 0xadf80daec7ba8dcf15392f1ac611fff65d94f880;
   0x5524c55fb03cf21f549444ccbecb664d0acad706; 0x40b803a9abce16f50f36a77ba41180eb90023925;
   0xfe24cdd8648121a43a7c86d289be4dd2951ed49f; 0x17802f43a0137c506ba92291391a8a8f207f487d;
   0x253488078a4edf4d6f42f113d1e62836a942cf1a; 0x86af3e9626fce1957c82e88cbf04ddf3a2ed7915;
   0xb136707642a4ea12fb4bae820f03d2562ebff487; 0xdbe9b615a3ae8709af8b93336ce9b477e4ac0940;
   0xf14c14075d6c4ed84b86798af0956deef67365b5; 0xca544e5c4687d109611d0f8f928b53a25af72448;
   0xaeeb8ff27288bdabc0fa5ebb731b6f409507516c; 0xcbb9d3703e651b0d496cdefb8b92c25aeb2171f7;
   0x6d87578288b6cb5549d5076a207456a1f6a63dc0; 0xb2c6f0dfbb716ac562e2d85d6cb2f8d5ee87603e;
   0xaccc230e8a6e5be9160b8cdf2864dd2a001c28b6; 0x2b3455ec7fedf16e646268bf88846bd7a2319bb2;
   0x4613f3bca5c44ea06337a9e439fbc6d42e501d0a; 0xd343b217de44030afaa275f54d31a9317c7f441e;
   0x84ef4b2357079cd7a7c69fd7a37cd0609a679106; 0xda2fef9e4a3230988ff17df2165440f37e8b1708;
   0xf4c64518ea10f995918a454158c6b61407ea345c; 0x7602b46df5390e432ef1c307d4f2c9ff6d65cc97;
   0xbb9bc244d798123fde783fcc1c72d3bb8c189413; 0x807640a13483f8ac783c557fcdf27be11ea4ac7a].
(** src/ethereum/dao_fork/dao.py:143 *)
Definition DAO_RECOVERY : address := 0xbf4ed7b27f1d666546e30d74d50d173d20bca754.

(** src/ethereum/dao_fork/dao.py:146-157 *)
Fixpoint apply_dao_loop (s : state) (l : list address) : result state :=
  match l with
  | [] => Ok s
  | a :: l =>
      match move_ether_pow s a DAO_RECOVERY (balance (get_account s a)) with
      | Ok s => apply_dao_loop s l
      | Raise c => Raise c
      end
  end.
Definition apply_dao (s : state) : result state := apply_dao_loop s DAO_ACCOUNTS.

(** src/ethereum/gray_glacier/fork.py:656-695; exceptions leave the state as
    changed so far *)
Fixpoint pay_ommers (block_reward block_number : N) (ommers : list pow_header) : sm unit :=
  match ommers with
  | [] => sret tt
  | o :: ommers =>
      age <<- lift (usub block_number (ph_number o)) ;;
      ommer_age <<- lift (u256 age) ;;
      share <<- lift (usub 8 ommer_age) ;;
      product <<- lift (u256 (share * block_reward)) ;;
      let ommer_miner_reward := product / 8 in
      _ <<- modifies (fun s => create_ether s (ph_coinbase o) ommer_miner_reward) ;;
      pay_ommers block_reward block_number ommers
  end.
Definition pay_rewards (block_reward block_number : N) (coinbase : address)
    (ommers : list pow_header) : sm unit :=
  ommer_count <<- lift (u256 (lenN ommers)) ;;
  extra <<- lift (u256 (ommer_count * (block_reward / 32))) ;;
  miner_reward <<- lift (u256 (block_reward + extra)) ;;
  _ <<- modifies (fun s => create_ether s coinbase miner_reward) ;;
  pay_ommers block_reward block_number ommers.

(** ** Chains *)
Section chains.
  Context (cr : crypto) (keccak512 : bytes -> bytes) (fork : pow_fork) {tx : Type}.

  (** src/ethereum/gray_glacier/blocks.py:184-225 *)
  Record pow_block := PowBlock {
    pb_header : pow_header;
    pb_transactions : list tx;
    pb_ommers : list pow_header;
  }.
  (** src/ethereum/gray_glacier/fork.py:78-86 *)
  Record pow_chain := PowChain {
    pc_blocks : list pow_block;
    pc_state : state;
    pc_chain_id : N;
  }.
  (** What the execution of the transactions returns: the gas used, the two
      roots and the bloom of the logs *)
  Record pow_output := PowOutput {
    po_gas_used : N;
    po_transactions_root : bytes;
    po_receipt_root : bytes;
    po_bloom : bytes;
  }.
  Context (execute : pow_chain -> pow_header -> list tx -> sm pow_output).

  Definition pow_hash (h : pow_header) : bytes := keccak256 cr (encode (pow_header_rlp h)).
  Definition ommers_hash (ommers : list pow_header) : bytes :=
    keccak256 cr (encode (RList (map pow_header_rlp ommers))).

  (** src/ethereum/gray_glacier/fork.py:351-391, frontier/fork.py:263-302 *)
  Definition generate_header_hash_for_pow (h : pow_header) : bytes :=
    keccak256 cr (encode (RList (pow_fields h ++ pow_fee h))).

  (** src/ethereum/gray_glacier/fork.py:394-421 *)
  Definition validate_proof_of_work (h : pow_header) : outcome unit :=
    let header_hash := generate_header_hash_for_pow h in
    cache <~ generate_cache cr keccak512 (ph_number h) ;;
    size <~ dataset_size (ph_number h) ;;
    '(mix_digest, result) <~ hashimoto_light cr keccak512 header_hash (ph_nonce h) cache size ;;
    _ <~ check (bytes_eqb mix_digest (ph_mix_digest h)) ;;
    bound <~ udiv (2 ^ 256) (ph_difficulty h) ;;
    check (from_be_bytes result <=? bound).

  Definition base_fee_of (h : pow_header) : outcome N := of_option (FCrash AttributeError) (ph_base_fee_per_gas h).

  (** The gas limit and the base fee: src/ethereum/gray_glacier/fork.py:319-326,
      london/fork.py:318-329, frontier/fork.py:243-244 *)
  Definition validate_fee (h parent : pow_header) : outcome unit :=
    if pf_base_fee fork then
      expected_base_fee_per_gas <~
        (if bool_decide (pf_london_block fork = Some (ph_number h)) then Done INITIAL_BASE_FEE
         else fee <~ base_fee_of parent ;;
              calculate_base_fee_per_gas (ph_gas_limit h) (ph_gas_limit parent) (ph_gas_used parent)
                fee) ;;
      fee <~ base_fee_of h ;;
      check (expected_base_fee_per_gas =? fee)
    else check (check_gas_limit (ph_gas_limit h) (ph_gas_limit parent)).

  (** dao_fork/fork.py:268-273 *)
  Definition DAO_EXTRA : bytes :=
    [Byte.x64; Byte.x61; Byte.x6f; Byte.x2d; Byte.x68; Byte.x61; Byte.x72; Byte.x64; Byte.x2d;
     Byte.x66; Byte.x6f; Byte.x72; Byte.x6b].
  Definition validate_dao (h : pow_header) : outcome unit :=
    match pf_dao_block fork with
    | Some n =>
        if (n <=? ph_number h) && (ph_number h <? n + 10)
        then check (bytes_eqb (ph_extra_data h) DAO_EXTRA) else Done tt
    | None => Done tt
    end.

  (** src/ethereum/gray_glacier/fork.py:298-312 *)
  Definition find_parent (chain : pow_chain) (h : pow_header) : outcome pow_header :=
    _ <~ check (1 <=? ph_number h) ;;
    let parent_header_number := ph_number h - 1 in
    first <~ of_option (FCrash IndexError) (head (pc_blocks chain)) ;;
    last_block <~ of_option (FCrash IndexError) (last (pc_blocks chain)) ;;
    let first_block_number := ph_number (pb_header first) in
    let last_block_number := ph_number (pb_header last_block) in
    _ <~ check (first_block_number <=? parent_header_number) ;;
    _ <~ check (parent_header_number <=? last_block_number) ;;
    parent <~ index (pc_blocks chain) (parent_header_number - first_block_number) ;;
    Done (pb_header parent).

  (** src/ethereum/gray_glacier/fork.py:280-348, london/fork.py:281-354,
      byzantium/fork.py:204-265, dao_fork/fork.py:211-277,
      frontier/fork.py:201-260. The order of the independent checks of the
      fee and of the other fields differs between forks; only the raised
      exception could tell, and it is InvalidBlock in each case. *)
  Definition validate_header (chain : pow_chain) (h : pow_header) : outcome unit :=
    parent <~ find_parent chain h ;;
    _ <~ check (ph_gas_used h <=? ph_gas_limit h) ;;
    _ <~ validate_fee h parent ;;
    let parent_has_ommers := negb (bytes_eqb (ph_ommers_hash parent) (EMPTY_OMMER_HASH cr)) in
    _ <~ check (ph_timestamp parent <? ph_timestamp h) ;;
    _ <~ check (ph_number h =? ph_number parent + 1) ;;
    _ <~ check (lenN (ph_extra_data h) <=? 32) ;;
    block_difficulty <~ calculate_block_difficulty (pf_rule fork) (ph_number h) (ph_timestamp h)
      (ph_timestamp parent) (ph_difficulty parent) parent_has_ommers ;;
    _ <~ check (ph_difficulty h =? block_difficulty) ;;
    _ <~ check (bytes_eqb (ph_parent_hash h) (pow_hash parent)) ;;
    _ <~ validate_dao h ;;
    validate_proof_of_work h.

  (** src/ethereum/gray_glacier/fork.py:606-612 *)
  Fixpoint validate_ommer_headers (chain : pow_chain) (block_number : N) (ommers : list pow_header)
    : outcome unit :=
    match ommers with
    | [] => Done tt
    | o :: ommers =>
        _ <~ check (1 <=? ph_number o) ;;
        _ <~ check (ph_number o <? block_number) ;;
        _ <~ validate_header chain o ;;
        validate_ommer_headers chain block_number ommers
    end.

  (** src/ethereum/gray_glacier/fork.py:630-653 *)
  Fixpoint validate_ommer_ages (block_header : pow_header) (canonical included : list bytes)
      (ommers : list pow_header) : outcome unit :=
    match ommers with
    | [] => Done tt
    | o :: ommers =>
        let ommer_hash := pow_hash o in
        _ <~ check (negb (bytes_eqb ommer_hash (pow_hash block_header))) ;;
        _ <~ check (negb (bool_decide (ommer_hash ∈ canonical))) ;;
        _ <~ check (negb (bool_decide (ommer_hash ∈ included))) ;;
        ommer_age <~ usub (ph_number block_header) (ph_number o) ;;
        _ <~ check (1 <=? ommer_age) ;;
        _ <~ check (ommer_age <=? MAX_OMMER_DEPTH) ;;
        _ <~ check (bool_decide (ph_parent_hash o ∈ canonical)) ;;
        _ <~ check (negb (bytes_eqb (ph_parent_hash o) (ph_parent_hash block_header))) ;;
        validate_ommer_ages block_header canonical included ommers
    end.

  (** src/ethereum/gray_glacier/fork.py:581-653 *)
  Definition validate_ommers (ommers : list pow_header) (block_header : pow_header)
      (chain : pow_chain) : outcome unit :=
    _ <~ check (bytes_eqb (ommers_hash ommers) (ph_ommers_hash block_header)) ;;
    match ommers with
    | [] => Done tt
    | _ =>
        _ <~ validate_ommer_headers chain (ph_number block_header) ommers ;;
        _ <~ check (lenN ommers <=? 2) ;;
        _ <~ check (bool_decide (NoDup (map pow_hash ommers))) ;;
        let recent := lastN (MAX_OMMER_DEPTH + 1) (pc_blocks chain) in
        let canonical := map (fun b => pow_hash (pb_header b)) recent in
        let included := concat (map (fun b => map pow_hash (pb_ommers b)) recent) in
        validate_ommer_ages block_header canonical included ommers
    end.

  (** src/ethereum/gray_glacier/fork.py:541-578 *)
  Definition apply_body (chain : pow_chain) (b : pow_block) : sm pow_output :=
    let h := pb_header b in
    output <<- execute chain h (pb_transactions b) ;;
    _ <<- pay_rewards (pf_block_reward fork) (ph_number h) (ph_coinbase h) (pb_ommers b) ;;
    sret output.

  (** src/ethereum/gray_glacier/fork.py:151-215; the chain is returned also on
      failure *)
  Definition state_transition (chain : pow_chain) (b : pow_block) : outcome unit * pow_chain :=
    let h := pb_header b in
    match (_ <~ validate_header chain h ;; validate_ommers (pb_ommers b) h chain) with
    | Fail e => (Fail e, chain)
    | Done _ =>
        match apply_body chain b (pc_state chain) with
        | (Fail e, s) => (Fail e, PowChain (pc_blocks chain) s (pc_chain_id chain))
        | (Done output, s) =>
            match (block_state_root <~ of_option (FCrash AssertionError) (state_root cr s) ;;
                   _ <~ check (po_gas_used output =? ph_gas_used h) ;;
                   _ <~ check (bytes_eqb (po_transactions_root output) (ph_transactions_root h)) ;;
                   _ <~ check (bytes_eqb block_state_root (ph_state_root h)) ;;
                   _ <~ check (bytes_eqb (po_receipt_root output) (ph_receipt_root h)) ;;
                   check (bytes_eqb (po_bloom output) (ph_bloom h))) with
            | Fail e => (Fail e, PowChain (pc_blocks chain) s (pc_chain_id chain))
            | Done _ =>
                let blocks := pc_blocks chain ++ [b] in
                (Done tt, PowChain (if 255 <? lenN blocks then lastN 255 blocks else blocks) s
                            (pc_chain_id chain))
            end
        end
    end.
End chains.
Arguments pow_block : clear implicits.
Arguments pow_chain : clear implicits.
