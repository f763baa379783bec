(** A body that cannot be written, used by PropHttp.v. *)
From Verif Require Import HttpProofs ApiSamples.

Lemma failed_counted : ∃ sha E m p len w o rep l, http sha E m p len w o = Ok (FromHandler rep, Some (500%N, l.1, l.2)) ∧
  reply_status rep = 200%N ∧ sent_status (delegate_all (respond (reply_status rep) (len rep)) new_delegator).2 = 200%N.
Proof.
  exists toy, honest, "GET", "/memory/feesinfo", (λ _, None), (plain_wire 12000010), (new_oracle (cfg_at Mainnet 12000001)). eexists.
  exists ("get", "/memory/feesinfo"). split; [by vm_compute|]. split; by vm_compute.
Qed.
