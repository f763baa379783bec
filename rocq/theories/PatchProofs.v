(** Proofs about the mainnet block whose reward is written in the code. *)
From Verif Require Export BlockProofs.

Lemma patched_reward E fb c p l t a b : fb_chain fb = 1%N → fb_cblock fb = Some c → cb_slot c = 10400574%N → payload_of fb p →
  p_txs p = l ++ [Some t] → tx_to t = Some a → tx_sender t = Some b →
  mev_reward E fb = Ok (177043568463114308%Z, true, "0xAdFb8D27671F14f297eE94135e266aAFf8752e35").
Proof.
  intros Hch Hc Hs Hp Hl Ha Hb. unfold mev_reward, get_txs. rewrite (proj2 (get_payload_spec _ _) Hp). cbn [rbind].
  assert (head (rev (p_txs p)) = Some (Some t)) as -> by (apply last_snoc; by exists l). rewrite Ha, Hb.
  unfold whitelisted_builders. rewrite Hch. cbn [N.eqb MainnetChainId Pos.eqb].
  destruct Hp as (c' & Hc' & Hv1 & Hv2 & _). rewrite Hc in Hc'. injection Hc' as <-.
  unfold get_slot, need_cblock. rewrite Hc. cbn [rbind]. destruct (cb_version c); try done; cbn [rbind]; by rewrite Hs.
Qed.
