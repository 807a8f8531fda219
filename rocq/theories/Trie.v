(** * Trie: the Merkle Patricia trie (src/ethereum/osaka/trie.py).

    - A Python dictionary is an insertion-ordered association list with
      distinct keys ([dict]).
    - A nibble-list (a [Bytes] whose values are below 16) is a list of numbers.
    - [None] results of [patricialize] and [root] stand for Python errors
      (IndexError, AssertionError) and for exhausted recursion fuel; they are
      shown not to occur in [TrieProofs.v]. *)
From Verif Require Import Base State Rlp Vm.

Notation nibbles := (list N) (only parsing).

(** ** Dictionaries *)
Section Dict.
  Context {K V : Type} `{EqDecision K}.
  (** [d.get(k)] *)
  Fixpoint dict_get (d : list (K * V)) (k : K) : option V :=
    match d with
    | [] => None
    | (k', v) :: r => if decide (k' = k) then Some v else dict_get r k
    end.
  (** [d[k] = v]: an existing key keeps its position, a new one goes last. *)
  Fixpoint dict_set (d : list (K * V)) (k : K) (v : V) : list (K * V) :=
    match d with
    | [] => [(k, v)]
    | (k', v') :: r => if decide (k' = k) then (k', v) :: r else (k', v') :: dict_set r k v
    end.
  (** [del d[k]] if present *)
  Fixpoint dict_del (d : list (K * V)) (k : K) : list (K * V) :=
    match d with
    | [] => []
    | (k', v') :: r => if decide (k' = k) then r else (k', v') :: dict_del r k
    end.
End Dict.

(** src/ethereum/osaka/trie.py:200-208 *)
Record trie (V : Type) := Trie {
  t_secured : bool;
  t_default : V;
  t_data : list (bytes * V);
}.
Arguments Trie {V}. Arguments t_secured {V}. Arguments t_default {V}. Arguments t_data {V}.

(** src/ethereum/osaka/trie.py:229-249 *)
Definition trie_set {V} `{EqDecision V} (t : trie V) (key : bytes) (value : V) : trie V :=
  if decide (value = t_default t)
  then Trie (t_secured t) (t_default t) (dict_del (t_data t) key)
  else Trie (t_secured t) (t_default t) (dict_set (t_data t) key value).

(** src/ethereum/osaka/trie.py:252-270 *)
Definition trie_get {V} (t : trie V) (key : bytes) : V :=
  default (t_default t) (dict_get (t_data t) key).

(** src/ethereum/osaka/trie.py:273-280 *)
Fixpoint common_prefix_length (a b : nibbles) : N :=
  match a, b with
  | x :: a', y :: b' => if x =? y then 1 + common_prefix_length a' b' else 0
  | _, _ => 0
  end.

(** The loops of lines 318-326: consecutive pairs of nibbles. *)
Fixpoint pack_nibbles (x : nibbles) : bytes :=
  match x with
  | a :: b :: r => byte_of_N (16 * a + b) :: pack_nibbles r
  | _ => []
  end.

(** src/ethereum/osaka/trie.py:283-328 *)
Definition nibble_list_to_compact (x : nibbles) (is_leaf : bool) : bytes :=
  if lenN x mod 2 =? 0 then
    byte_of_N (16 * (2 * N.b2n is_leaf)) :: pack_nibbles x
  else
    match x with
    | [] => []
    | x0 :: r => byte_of_N (16 * (2 * N.b2n is_leaf + 1) + x0) :: pack_nibbles r
    end.

(** src/ethereum/osaka/trie.py:331-349 *)
Fixpoint bytes_to_nibble_list (b : bytes) : nibbles :=
  match b with
  | [] => []
  | x :: r =>
      N.shiftr (N.land (Byte.to_N x) 0xF0) 4 :: N.land (Byte.to_N x) 0x0F
      :: bytes_to_nibble_list r
  end.

(** src/ethereum/osaka/trie.py:91-136; [Extended] is [rlp]. The value of a
    leaf or branch is a [Bytes]. *)
Inductive internal_node :=
| LeafNode (rest_of_key : nibbles) (value : bytes)
| ExtensionNode (key_segment : nibbles) (subnode : rlp)
| BranchNode (subnodes : list rlp) (value : bytes).

Section Root.
  Context (cr : crypto).

  (** src/ethereum/osaka/trie.py:157-174 *)
  Definition unencoded_node (node : option internal_node) : rlp :=
    match node with
    | None => RBytes []
    | Some (LeafNode rest_of_key value) =>
        RList [RBytes (nibble_list_to_compact rest_of_key true); RBytes value]
    | Some (ExtensionNode key_segment subnode) =>
        RList [RBytes (nibble_list_to_compact key_segment false); subnode]
    | Some (BranchNode subnodes value) => RList (subnodes ++ [RBytes value])
    end.

  (** src/ethereum/osaka/trie.py:139-180 *)
  Definition encode_internal_node (node : option internal_node) : rlp :=
    let unencoded := unencoded_node node in
    let encoded := encode unencoded in
    if lenN encoded <? 32 then unencoded else RBytes (keccak256 cr encoded).

  (** src/ethereum/osaka/trie.py:458-467: the loop over the keys, with its
      [break] *)
  Fixpoint find_prefix_length (substring : nibbles) (level : N)
      (obj : list (nibbles * bytes)) (prefix_length : N) : N :=
    match obj with
    | [] => prefix_length
    | (key, _) :: r =>
        let p := N.min prefix_length (common_prefix_length substring (dropN level key)) in
        if p =? 0 then p else find_prefix_length substring level r p
    end.

  (** src/ethereum/osaka/trie.py:483-491: [value] and the dictionary
      [branches[k]] after the loop. [key[level]] on a key shorter than
      [level] would be IndexError; such a key lands in no branch here, and
      keys always share their first [level] nibbles. *)
  Definition branch_value (obj : list (nibbles * bytes)) (level : N) : bytes :=
    fold_left (fun value '(key, v) => if lenN key =? level then v else value) obj [].
  Definition branch (k : N) (obj : list (nibbles * bytes)) (level : N)
    : list (nibbles * bytes) :=
    filter (fun p => nthN (fst p) level = Some k) obj.

  (** [tuple(f(k) for k in range(16))] where [f] may raise *)
  Fixpoint collect {A} (f : N -> option A) (ks : list N) : option (list A) :=
    match ks with
    | [] => Some []
    | k :: r => match f k, collect f r with
                | Some x, Some xs => Some (x :: xs)
                | _, _ => None
                end
    end.

  (** src/ethereum/osaka/trie.py:426-500. The outer option is [None] for an
      error, the inner one is the Python [None]. *)
  Fixpoint patricialize (fuel : nat) (obj : list (nibbles * bytes)) (level : N)
    : option (option internal_node) :=
    match fuel with
    | O => None
    | S f =>
        match obj with
        | [] => Some None
        | [(key, v)] => Some (Some (LeafNode (dropN level key) v))
        | (arbitrary_key, _) :: _ =>
            let substring := dropN level arbitrary_key in
            let prefix_length := find_prefix_length substring level obj (lenN substring) in
            if 0 <? prefix_length then
              match patricialize f obj (level + prefix_length) with
              | Some n =>
                  Some (Some (ExtensionNode
                    (sliceN level (level + prefix_length) arbitrary_key)
                    (encode_internal_node n)))
              | None => None
              end
            else
              match collect (fun k =>
                      match patricialize f (branch k obj level) (level + 1) with
                      | Some n => Some (encode_internal_node n)
                      | None => None
                      end) [0;1;2;3;4;5;6;7;8;9;10;11;12;13;14;15] with
              | Some subnodes => Some (Some (BranchNode subnodes (branch_value obj level)))
              | None => None
              end
        end
    end.

  (** src/ethereum/osaka/trie.py:352-392. [encode_value preimage value] is
      [encode_node(value, get_storage_root(preimage))] (lines 183-197);
      [None] is the AssertionError for an empty encoding. *)
  Fixpoint prepare_loop {V} (encode_value : bytes -> V -> bytes) (secured : bool)
      (data : list (bytes * V)) (mapped : list (nibbles * bytes))
    : option (list (nibbles * bytes)) :=
    match data with
    | [] => Some mapped
    | (preimage, value) :: r =>
        match encode_value preimage value with
        | [] => None
        | encoded_value =>
            let key := if secured then keccak256 cr preimage else preimage in
            prepare_loop encode_value secured r
              (dict_set mapped (bytes_to_nibble_list key) encoded_value)
        end
    end.
  Definition prepare_trie {V} (encode_value : bytes -> V -> bytes) (t : trie V)
    : option (list (nibbles * bytes)) :=
    prepare_loop encode_value (t_secured t) (t_data t) [].

  (** Fuel for [patricialize]: one more than the longest key. *)
  Definition max_key (obj : list (nibbles * bytes)) : nat :=
    fold_right (fun p n => Nat.max (length (fst p)) n) 0%nat obj.

  (** src/ethereum/osaka/trie.py:395-423; the last branch is the
      AssertionError when the node is not a [Bytes]. *)
  Definition root {V} (encode_value : bytes -> V -> bytes) (t : trie V) : option bytes :=
    match prepare_trie encode_value t with
    | None => None
    | Some obj =>
        match patricialize (S (max_key obj)) obj 0 with
        | None => None
        | Some n =>
            let root_node := encode_internal_node n in
            if lenN (encode root_node) <? 32 then Some (keccak256 cr (encode root_node))
            else match root_node with
                 | RBytes b => Some b
                 | RList _ => None
                 end
        end
    end.

  (** src/ethereum/osaka/fork_types.py:50-65 *)
  Definition encode_account (a : account) (storage_root : bytes) : bytes :=
    encode (RList [RUint (nonce a); RUint (balance a); RBytes storage_root;
                   RBytes (keccak256 cr (code a))]).

  (** src/ethereum/osaka/trie.py:59-63 *)
  Definition EMPTY_TRIE_ROOT : bytes :=
    to_be_bytes32 0x56e81f171bcc55a6ff8345e692c0f86e5b48e01b996cadc001622fb5e363b421.

  (** src/ethereum/osaka/trie.py:183-197, [U256] values *)
  Definition encode_u256 (x : N) : bytes := encode (RUint x).

  (** src/ethereum/osaka/state.py:324-344, 347-366. The finite maps of
      [State.v] carry no insertion order: [map_to_list] picks one (C25: the
      root does not depend on it). [None] is an AssertionError. *)
  Definition storage_trie (m : slots) : trie N :=
    Trie true 0 (map (fun '(k, v) => (to_be_bytes32 k, v)) (map_to_list m)).
  Definition storage_root (s : state) (a : address) : option bytes :=
    match snapshots s with
    | [] => match storage_tries s !! a with
            | Some m => root (fun _ => encode_u256) (storage_trie m)
            | None => Some EMPTY_TRIE_ROOT
            end
    | _ => None
    end.
  Definition account_trie (m : accounts) : trie (option account) :=
    Trie true None (map (fun '(k, v) => (to_be_bytes20 k, Some v)) (map_to_list m)).
  (** An empty encoding makes [prepare_trie] fail, which is how a failure of
      [storage_root] propagates. *)
  Definition state_root (s : state) : option bytes :=
    match snapshots s with
    | [] =>
        root (fun preimage v =>
                match v with
                | Some a =>
                    match storage_root s (from_be_bytes preimage) with
                    | Some r => encode_account a r
                    | None => []
                    end
                | None => []
                end) (account_trie (main_trie s))
    | _ => None
    end.
End Root.
