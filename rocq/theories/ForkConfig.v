(** * ForkConfig: loading a schedule of forks.

    Models [Hardfork.load] and [Hardfork.load_from_json] of
    src/ethereum_spec_tools/forks.py:122-170.  A module is its name; its
    attribute FORK_CRITERIA is a table.  The JSON file is the table of the
    integers the code reads. *)
From Verif Require Import Base ForkCriteria.

Section load.
  Context {name : Type} `{EqDecision name}.
  (** A dictionary from criteria to names, in the order of insertion *)
  Notation config := (list (fork_criteria * name)).

  (** [d[c] = x]: an equal key stays in its place and gets the new value. *)
  Fixpoint dict_set (d : config) (c : fork_criteria) (x : name) : config :=
    match d with
    | [] => [(c, x)]
    | (c', x') :: d => if fc_eq c' c then (c', x) :: d else (c', x') :: dict_set d c x
    end.
  (** A dictionary display [{c1: x1, ...}] *)
  Definition dict_of (entries : config) : config :=
    fold_left (fun d e => dict_set d (fst e) (snd e)) entries [].

  (** [sorted(d.items(), key=lambda x: x[0])]: the stable sort, here by
      insertion *)
  Fixpoint insert_by (e : fork_criteria * name) (l : config) : config :=
    match l with
    | [] => [e]
    | e' :: l' => if fc_lt (fst e) (fst e') then e :: l else e' :: insert_by e l'
    end.
  Definition sorted_items (d : config) : config := fold_left (fun l e => insert_by e l) d [].

  (** [mod.FORK_CRITERIA] of the module [x] after the assignments of the loop *)
  Definition module_criteria (l : config) (x : name) (c : fork_criteria) : fork_criteria :=
    fold_left (fun c e => if decide (snd e = x) then fst e else c) l c.

  (** forks.py:122-137; a fork is the criteria its module ends up with, and
      the module *)
  Definition load (d : config) : config :=
    let config := sorted_items d in
    map (fun e => (module_criteria config (snd e) (fst e), snd e)) config.
End load.

Inductive geth_fork :=
| GFrontier | GHomestead | GTangerineWhistle | GSpuriousDragon | GByzantium | GConstantinople | GIstanbul
| GBerlin | GLondon | GParis | GShanghai.
Global Instance geth_fork_eq_dec : EqDecision geth_fork.
Proof. solve_decision. Defined.

(** [json["config"]]; a key may be missing *)
Record geth_config := GethConfig {
  g_homesteadBlock : option Z; g_eip150Block : option Z; g_eip155Block : option Z;
  g_byzantiumBlock : option Z; g_constantinopleBlock : option Z; g_istanbulBlock : option Z;
  g_berlinBlock : option Z; g_londonBlock : option Z; g_mergeForkBlock : option Z;
  g_shanghaiTime : option Z;
  g_has_daoForkBlock : bool;
}.
(** KeyError, OverflowError of Uint and U256, and the exception about Mainnet *)
Inductive config_error := MissingKey | OutOfRange | MainnetUnsupported.

(** fork_criteria.py:130-132 and :163-165 *)
Definition by_block_number (v : option Z) : config_error + fork_criteria :=
  match v with
  | None => inl MissingKey
  | Some v => if (v <? 0)%Z then inl OutOfRange else inr (ByBlockNumber (Z.to_N v))
  end.
Definition by_timestamp (v : option Z) : config_error + fork_criteria :=
  match v with
  | None => inl MissingKey
  | Some v => if (v <? 0)%Z || (2 ^ 256 <=? v)%Z then inl OutOfRange else inr (ByTimestamp (Z.to_N v))
  end.
Fixpoint read_blocks (l : list (option Z * geth_fork)) : config_error + list (fork_criteria * geth_fork) :=
  match l with
  | [] => inr []
  | (v, x) :: l =>
      match by_block_number v with
      | inl e => inl e
      | inr c => match read_blocks l with inl e => inl e | inr r => inr ((c, x) :: r) end
      end
  end.

(** forks.py:139-170 *)
Definition load_from_json (c : geth_config) : config_error + list (fork_criteria * geth_fork) :=
  match read_blocks
    [(g_homesteadBlock c, GHomestead); (g_eip150Block c, GTangerineWhistle); (g_eip155Block c, GSpuriousDragon);
     (g_byzantiumBlock c, GByzantium); (g_constantinopleBlock c, GConstantinople); (g_istanbulBlock c, GIstanbul);
     (g_berlinBlock c, GBerlin); (g_londonBlock c, GLondon); (g_mergeForkBlock c, GParis)] with
  | inl e => inl e
  | inr blocks =>
      match by_timestamp (g_shanghaiTime c) with
      | inl e => inl e
      | inr shanghai =>
          if g_has_daoForkBlock c then inl MainnetUnsupported
          else inr (load (dict_of ((ByBlockNumber 0, GFrontier) :: blocks ++ [(shanghai, GShanghai)])))
      end
  end.
