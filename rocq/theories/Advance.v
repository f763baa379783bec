(** Processing one slot. Models [oracle/oracle.go] lines 67-103, 159-258, 405-489, 854-968. *)
From Verif Require Export Block.

(** NewOracle, oracle.go:67-103. *)
Definition new_oracle (c : config) : oracle :=
  Oracle c (OSt "" (u64_sub (c_dep_slot c) 1) 0 (c_dep_slot c) 0 ∅ ∅ [] [] [] [] [] [] []
    (c_feepct c) (c_pool c) (c_network c) (c_fees_addr c) (c_cp_size c) (c_dep_block c) (c_dep_slot c) (c_coll c)).

(** feeSchedule and getFeeSchedule, oracle.go:409-424. *)
Definition fee_schedule (net : string) : gmap N Z :=
  if String.eqb net Mainnet then {[ 14082460%N := 500%Z ]}
  else if String.eqb net Hoodi then {[ 2801050%N := 500%Z ]}
  else ∅.

(** The loop of applyFeeScheduleUpTo, oracle.go:429-438, in the order given; the state is (bestSlot, bestFee). *)
Fixpoint best_fee (l : list (N * Z)) (upto : N) (best : option (N * Z)) : option (N * Z) :=
  match l with
  | [] => best
  | (slot, fee) :: l =>
      if (slot <=? upto)%N && (match best with None => true | Some (b, _) => (b <? slot)%N end)
      then best_fee l upto (Some (slot, fee))
      else best_fee l upto best
  end.

(** applyFeeScheduleUpTo, oracle.go:428-442. *)
Definition apply_fee_schedule (upto : N) (c : config) : config :=
  match best_fee (map_to_list (fee_schedule (c_network c))) upto None with
  | Some (_, fee) => cset_feepct fee c
  | None => c
  end.

(** validateFullBlockConfig, oracle.go:450-489. The fee change is written before the later checks run. *)
Definition validate_config (E : env) (fb : fullblock) (o : oracle) : outcome oracle unit :=
  let ev := fb_events fb in
  if ((1 <? length (ev_pool_fee ev)) || (1 <? length (ev_fee_recipient ev))
      || (1 <? length (ev_checkpoint_size ev)) || (1 <? length (ev_collateral ev)))%nat
  then Fail o "more than one event of the same type in the same block, weird" else
  match (match ev_pool_fee ev with
         | [] => inl o
         | (fee, _) :: _ =>
             let new_fee := int64_of_big fee in
             match fee_schedule (c_network (or_cfg o)) !! fb_duty_slot fb with
             | Some expected =>
                 if (expected =? new_fee)%Z
                 then inl (Oracle (cset_feepct new_fee (or_cfg o)) (set_feepct new_fee (or_st o)))
                 else inr "unexpected pool fee change"
             | None => inr "unexpected pool fee change"
             end
         end) with
  | inr e => Fail o e
  | inl o1 =>
      match (match ev_fee_recipient ev with
             | [] => Ok true
             | (a, _) :: _ => equals (c_fees_addr (or_cfg o1)) (addr_string (e_mask E) a)
             end) with
      | Die d => Dead d
      | Ok false => Fail o1 "pool fee recipient has changed"
      | Ok true =>
          if negb (match ev_checkpoint_size ev with [] => true | (n, _) :: _ => (c_cp_size (or_cfg o1) =? n)%N end)
          then Fail o1 "checkpoint size has changed" else
          if negb (match ev_collateral ev with [] => true | (z, _) :: _ => (c_coll (or_cfg o1) =? z)%Z end)
          then Fail o1 "subscription collateral has changed" else
          Done o1 tt
      end
  end.

(** The handlers of AdvanceStateToNextSlot, oracle.go:198-239, on the summarized block [b] and the
    donations [don]. *)
Definition process_block (E : env) (net : string) (fb : fullblock) (b : sblock) (don : list ev_ether) (s : ost) : res ost :=
  let ev := fb_events fb in
  let s0 := set_events (st_subs s ++ ev_subscribe ev) (st_unsubs s ++ ev_unsubscribe ev)
              (st_ether s ++ ev_ether_received ev) s in
  let! s1 := handle_subs E (ev_subscribe ev) (fb_subs fb) s0 in
  let s2 := match sb_type b with
            | MissedProposal => if is_subscribed s1 (sb_index b) then handle_missed b s1 else s1
            | _ => s1
            end in
  let! s3 := (match sb_type b with OkPoolProposalBlsKeys => handle_bls b s2 | _ => Ok s2 end) in
  let! s4 := (match sb_type b with OkPoolProposal => handle_correct E net b s3 | _ => Ok s3 end) in
  let! s5 := (match sb_type b with
              | WrongFeeRecipient => if is_subscribed s4 (sb_index b) then handle_ban_validator E net b s4 else Ok s4
              | _ => Ok s4
              end) in
  let! s6 := handle_unsubs E net (ev_unsubscribe ev) (fb_unsubs fb) s5 in
  let! s7 := handle_donations E net don s6 in
  let! s8 := handle_bans E net (ev_bans ev) s7 in
  handle_unbans (ev_unbans ev) s8.

(** Final counters, oracle.go:251-257. *)
Definition bump_slots (b : sblock) (s : ost) : ost :=
  set_slots (st_next s)
    (match sb_type b with MissedProposal => st_latest_block s | _ => sb_block b end)
    (u64_add (st_next s) 1) s.

(** AdvanceStateToNextSlot, oracle.go:163-258: the processed slot, or an error together with the
    (possibly modified) oracle. *)
Definition advance (E : env) (fb : fullblock) (o : oracle) : outcome oracle N :=
  let s := or_st o in
  if negb (st_next s =? u64_add (st_latest s) 1)%N
  then Fail o "Next slot to process is not the last processed slot + 1" else
  if negb (st_next s =? fb_duty_slot fb)%N
  then Fail o "Next slot to process is not the same as the block slot" else
  match validate_config E fb o with
  | Dead d => Dead d
  | Fail o1 e => Fail o1 e
  | Done o1 _ =>
      let net := c_network (or_cfg o1) in
      match summarize E (or_st o1) (c_pool (or_cfg o1)) fb with
      | Die d => Dead d
      | Ok b =>
          if negb (st_next (or_st o1) =? sb_slot b)%N
          then Fail o1 "Next slot to process is not the same as the block slot" else
          match get_donations E (c_pool (or_cfg o1)) fb with
          | Die d => Dead d
          | Ok don =>
              match process_block E net fb b don (or_st o1) with
              | Die d => Dead d
              | Ok s2 =>
                  match (if (st_next s2 mod 1200 =? 0)%N then cleanup E net (st_next s2) s2 else Done s2 tt) with
                  | Dead d => Dead d
                  | Fail s3 e => Fail (Oracle (or_cfg o1) s3) e
                  | Done s3 _ => Done (Oracle (or_cfg o1) (bump_slots b s3)) (st_next s3)
                  end
              end
          end
      end
  end.

(** ** Reconciliations *)

(** What the pool owes: the sums of oracle.go:876-881 and 911-917. *)
Definition liabilities (s : ost) : Z :=
  (map_fold (λ _ v a, v_acc v + v_pend v + a) 0 (st_vals s) + st_fees s)%Z.

(** The assets of RunOffchainReconciliation, oracle.go:919-931; nil rewards panic in Go and count as 0 here
    (they cannot be recorded: [handle_correct] and [handle_bls] dereference them first). *)
Definition assets (s : ost) : Z :=
  (foldr (λ e a, er_amount e + a) 0 (st_ether s)
   + foldr (λ e a, sub_coll e + a) 0 (st_subs s)
   + foldr (λ b a, match sb_reward_type b with VanilaBlock => default 0 (sb_reward b) + a | _ => a end) 0 (st_proposed s))%Z.

(** RunOffchainReconciliation, oracle.go:910-942: true when it returns nil. *)
Definition offchain_reconciliation (s : ost) : bool := (liabilities s =? assets s)%Z.

(** RunOnchainReconciliation, oracle.go:863-908. [claimed] is the map's list of amounts. *)
Definition onchain_reconciliation (balance : Z) (claimed : list Z) (s : ost) : bool :=
  (liabilities s - foldr Z.add 0%Z claimed =? balance)%Z.

(** GetUniqueWithdrawalAddresses, oracle.go:944-968, for the iteration order of [E]. *)
Fixpoint unique_loop (l : list (N * vinfo)) (acc : list string) : res (list string) :=
  match l with
  | [] => Ok acc
  | (_, v) :: l =>
      let! skip := is_in (v_addr v) acc in
      unique_loop l (if skip then acc else acc ++ [v_addr v])
  end.
(** The whole function, oracle.go:942-968. *)
Definition unique_withdrawal_addresses (E : env) (s : ost) : res (list string) :=
  let! l := unique_loop (e_iter E (st_vals s)) [] in Ok (l ++ [st_fees_addr s]).
