(** State machine and reward sharing. Models [oracle/oracle.go] lines 42-65, 1008-1047, 1539-1834, 1873-2052. *)
From Verif Require Export Types.

(** ** Networks and forks *)

(** Network names, oracle/onchain.go:47-51. *)
Definition Mainnet : string := "mainnet".
(** onchain.go:47-51. *)
Definition Holesky : string := "holesky".
(** onchain.go:47-51. *)
Definition Hoodi : string := "hoodi".
(** onchain.go:47-51. *)
Definition Goerli : string := "goerli".

(** SlotFork1, oracle.go:53-57. *)
Definition slot_fork1 (net : string) : option N :=
  if String.eqb net Mainnet then Some 10188220%N
  else if String.eqb net Holesky then Some 2720632%N
  else if String.eqb net Hoodi then Some 1%N
  else None.

(** SlotElectraFork, oracle.go:60-65. *)
Definition slot_electra (net : string) : option N :=
  if String.eqb net Mainnet then Some 11649024%N
  else if String.eqb net Hoodi then Some 65536%N
  else None.

(** ** Validator state machine *)

(** The nested switch of advanceStateMachine, oracle.go:1888-2051. Pairs without a case leave the
    status unchanged. *)
Definition fsm (st : vstatus) (e : vevent) : vstatus :=
  match st with
  | Active =>
      match e with
      | ProposalOk => Active
      | ProposalWrongFee => Banned
      | ProposalMissed => YellowCard
      | Unsubscribe => NotSubscribed
      | ManualBan => Banned
      | _ => Active
      end
  | YellowCard =>
      match e with
      | ProposalOk => Active
      | ProposalWrongFee => Banned
      | ProposalMissed => RedCard
      | Unsubscribe => NotSubscribed
      | ManualBan => Banned
      | _ => YellowCard
      end
  | RedCard =>
      match e with
      | ProposalOk => YellowCard
      | ProposalWrongFee => Banned
      | ProposalMissed => RedCard
      | Unsubscribe => NotSubscribed
      | ManualBan => Banned
      | _ => RedCard
      end
  | NotSubscribed =>
      match e with
      | ManualSubscription => Active
      | AutoSubscription => Active
      | _ => NotSubscribed
      end
  | Banned =>
      match e with
      | ManualUnban => Active
      | _ => Banned
      end
  | UnknownState => UnknownState
  | Untracked => Untracked
  end.

(** advanceStateMachine, oracle.go:1875-2052: no effect on untracked validators (1878-1886). *)
Definition advance_fsm (idx : N) (e : vevent) (s : ost) : ost :=
  match st_vals s !! idx with
  | None => s
  | Some v => set_vals (<[idx := set_status (fsm (v_status v) e) v]> (st_vals s)) s
  end.

(** isSubscribed, oracle.go:1010-1020 (the loop over the map is a lookup). *)
Definition is_subscribed (s : ost) (idx : N) : bool :=
  match st_vals s !! idx with
  | None => false
  | Some v => match v_status v with Banned | NotSubscribed | UnknownState => false | _ => true end
  end.

(** isBanned, oracle.go:1023-1032. *)
Definition is_banned (s : ost) (idx : N) : bool :=
  match st_vals s !! idx with
  | None => false
  | Some v => match v_status v with Banned => true | _ => false end
  end.

(** isTracked, oracle.go:1036-1042. *)
Definition is_tracked (s : ost) (idx : N) : bool :=
  match st_vals s !! idx with None => false | Some _ => true end.

(** isCollateralEnough, oracle.go:1045-1047. *)
Definition is_collateral_enough (s : ost) (z : Z) : bool := (st_coll s <=? z)%Z.

(** ** Balance primitives *)

(** A write through [or.state.Validators[idx]]: panics when the validator is not in the map.
    E.g. oracle.go:1546, 1790. *)
Definition upd_val (idx : N) (f : vinfo → vinfo) (s : ost) : res ost :=
  match st_vals s !! idx with
  | None => Die (Panic "nil validator")
  | Some v => Ok (set_vals (<[idx := f v]> (st_vals s)) s)
  end.

(** A read of [or.state.Validators[idx].PendingRewardsWei]. E.g. oracle.go:1357, 1430, 1489. *)
Definition get_pend (idx : N) (s : ost) : res Z :=
  match st_vals s !! idx with
  | None => Die (Panic "nil validator")
  | Some v => Ok (v_pend v)
  end.

(** increaseValidatorPendingRewards, oracle.go:1788-1798. *)
Definition inc_pend (idx : N) (z : Z) : ost → res ost :=
  upd_val idx (λ v, set_pend (v_pend v + z) v).

(** increaseValidatorAccumulatedRewards, oracle.go:1801-1812. *)
Definition inc_acc (idx : N) (z : Z) : ost → res ost :=
  upd_val idx (λ v, set_acc (v_acc v + z) v).

(** sendRewardToPool, oracle.go:1815-1825. *)
Definition send_to_pool (z : Z) (s : ost) : ost := set_fees (st_fees s + z) s.

(** resetPendingRewards, oracle.go:1828-1834. *)
Definition reset_pend (idx : N) : ost → res ost := upd_val idx (set_pend 0).

(** consolidateBalance, oracle.go:1541-1556. *)
Definition consolidate (idx : N) : ost → res ost :=
  upd_val idx (λ v, set_pend 0 (set_acc (v_acc v + v_pend v) v)).

(** ** Reward sharing *)

(** The status test of getEligibleValidators, oracle.go:1563. *)
Definition eligible (v : vinfo) : bool :=
  match v_status v with Active | YellowCard => true | _ => false end.

(** getEligibleValidators, oracle.go:1559-1568, in the runtime's iteration order. *)
Definition eligible_indices (E : env) (s : ost) : list N :=
  (filter (λ kv, eligible kv.2 = true) (e_iter E (st_vals s))).*1.

(** Reward methods, oracle.go:44-48. *)
Inductive method := PreFork1 | Fork1 | Electra.

(** determineRewardMethod, oracle.go:1570-1582. *)
Definition reward_method (net : string) (next : N) : res method :=
  match slot_electra net with
  | Some f => if (f <=? next)%N then Ok Electra else
      match slot_fork1 net with
      | Some g => if (g <=? next)%N then Ok Fork1 else Ok PreFork1
      | None => Die (Fatal "network not found in forks list")
      end
  | None =>
      match slot_fork1 net with
      | Some g => if (g <=? next)%N then Ok Fork1 else Ok PreFork1
      | None => Die (Fatal "network not found in forks list")
      end
  end.

(** handleFork1RewardDistribution, oracle.go:1650-1669: (total fees, reward per validator). *)
Definition fork1_split (reward cut n : Z) : res (Z * Z) :=
  let to_share := (reward - cut)%Z in
  let per := go_div to_share n in
  let rem := go_mod to_share n in
  let fees := (cut + rem)%Z in
  if (per * n + fees =? reward)%Z then Ok (fees, per) else Die (Fatal "Fork1: reward mismatch").

(** handlePreFork1RewardDistribution, oracle.go:1671-1703. *)
Definition prefork1_split (reward cut aux over n : Z) : res (Z * Z) :=
  let rem1 := go_mod aux over in
  let to_share := (reward - cut - rem1)%Z in
  let per := go_div to_share n in
  let rem2 := go_mod to_share n in
  let fees := (cut + rem1 + rem2)%Z in
  if (per * n + fees =? reward)%Z then Ok (fees, per) else Die (Fatal "PreFork1: reward mismatch").

(** [big.NewInt(int64(v.Validator.EffectiveBalance))], oracle.go:1601, 1616. *)
Definition eff (v : bval) : Z := int64_of_u64 (b_effbal v).

(** Total effective balance of a response, oracle.go:1599-1602. *)
Definition total_balance (r : list (N * bval)) : Z := foldr (λ kv a, (eff kv.2 + a)%Z) 0%Z r.

(** Share of one validator, oracle.go:1616-1617. *)
Definition electra_share (to_distribute total : Z) (v : bval) : Z :=
  go_div (to_distribute * eff v) total.

(** Sum of all shares, oracle.go:1628. *)
Definition total_shares (to_distribute total : Z) (r : list (N * bval)) : Z :=
  foldr (λ kv a, (electra_share to_distribute total kv.2 + a)%Z) 0%Z r.

(** The map perValidatorRewards, oracle.go:1608, 1615, 1627: keyed by the validator's own index, a later
    entry overwrites an earlier one. *)
Definition electra_rewards (to_distribute total : Z) (r : list (N * bval)) : gmap N Z :=
  fold_left (λ m kv, <[b_index kv.2 := electra_share to_distribute total kv.2]> m) r ∅.

(** handleElectraRewardDistribution, oracle.go:1586-1646: (rewards map, total fees). Both error returns
    end the process at oracle.go:1747-1749. *)
Definition electra_split (E : env) (next : N) (reward cut : Z) (elig : list N) : res (gmap N Z * Z) :=
  let to_distribute := (reward - cut)%Z in
  match e_vals E elig next with
  | None => Die (Fatal "Reward distribution failed: failed to fetch validator balances")
  | Some r =>
      let total := total_balance r in
      if (total =? 0)%Z then Die (Fatal "Reward distribution failed: total balance is zero") else
      let distributed := total_shares to_distribute total r in
      let remainder := (to_distribute - distributed)%Z in
      let fees := (cut + remainder)%Z in
      if (distributed + fees =? reward)%Z
      then Ok (electra_rewards to_distribute total r, fees)
      else Die (Fatal "Electra fork: reward mismatch")
  end.

(** The loops applying rewards, oracle.go:1764-1768 and 1777-1781. *)
Fixpoint apply_rewards (l : list (N * Z)) (s : ost) : res ost :=
  match l with
  | [] => Ok s
  | (i, z) :: l => let! s1 := inc_pend i z s in apply_rewards l s1
  end.

(** increaseAllPendingRewards, oracle.go:1711-1785. The final loop over the Electra rewards map is taken
    in the canonical key order; additions to distinct validators commute. *)
Definition increase_all (E : env) (net : string) (reward : Z) (s : ost) : res ost :=
  let elig := eligible_indices E s in
  match elig with
  | [] => Ok (send_to_pool reward s)
  | _ :: _ =>
      if (10000 <? st_feepct s)%Z then Die (Fatal "Pool fees percent cannot be greater than 100%") else
      let n := Z.of_nat (length elig) in
      let over := 10000%Z in
      let aux := (reward * st_feepct s)%Z in
      let cut := go_div aux over in
      let! m := reward_method net (st_next s) in
      match m with
      | Electra =>
          let! '(rewards, fees) := electra_split E (st_next s) reward cut elig in
          apply_rewards (map_to_list rewards) (send_to_pool fees s)
      | Fork1 =>
          let! '(fees, per) := fork1_split reward cut n in
          apply_rewards ((λ i, (i, per)) <$> elig) (send_to_pool fees s)
      | PreFork1 =>
          let! '(fees, per) := prefork1_split reward cut aux over n in
          apply_rewards ((λ i, (i, per)) <$> elig) (send_to_pool fees s)
      end
  end.
