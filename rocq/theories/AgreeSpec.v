(** Vocabulary of the theorems about the agreement of all oracles of a deployment. *)
From Verif Require Export SyncSpec.

(** [nd0] is what there is to be known about the chain; [nd] says nothing else. It may leave any request unanswered. *)
Record echoes (nd0 nd : node) : Prop := Echoes {
  ec_chain : nd_chain nd = nd_chain nd0;
  ec_duties : ∀ epoch a, nd_duties nd epoch = Some a → nd_duties nd0 epoch = Some a;
  ec_vals : ∀ i slot a, nd_vals nd [i] slot = Some a → nd_vals nd0 [i] slot = Some a;
  ec_block : ∀ slot a, nd_block nd slot = Some a → nd_block nd0 slot = Some a;
  ec_ether : ∀ n a, nd_ether nd n = Some a → nd_ether nd0 n = Some a;
  ec_subs : ∀ n a, nd_subs nd n = Some a → nd_subs nd0 n = Some a;
  ec_unsubs : ∀ n a, nd_unsubs nd n = Some a → nd_unsubs nd0 n = Some a;
  ec_fee : ∀ n a, nd_fee nd n = Some a → nd_fee nd0 n = Some a;
  ec_recipient : ∀ n a, nd_recipient nd n = Some a → nd_recipient nd0 n = Some a;
  ec_size : ∀ n a, nd_size nd n = Some a → nd_size nd0 n = Some a;
  ec_coll : ∀ n a, nd_coll nd n = Some a → nd_coll nd0 n = Some a;
  ec_bans : ∀ n a, nd_bans nd n = Some a → nd_bans nd0 n = Some a;
  ec_unbans : ∀ n a, nd_unbans nd n = Some a → nd_unbans nd0 n = Some a;
  ec_header : ∀ n a, nd_header nd n = Some a → nd_header nd0 n = Some a;
  ec_receipt : ∀ h a, nd_receipt nd h = Some a → nd_receipt nd0 h = Some a }.

(** The same for balances and consolidations, where the order of requests and answers is up to the runtime. *)
Record reflects (E0 E : env) : Prop := Reflects {
  rf_vals : ∀ req req0 slot r, req ≡ₚ req0 → e_vals E req slot = Some r → ∃ r0, e_vals E0 req0 slot = Some r0 ∧ r ≡ₚ r0;
  rf_cons : ∀ slot l, e_cons E slot = Some l → e_cons E0 slot = Some l;
  rf_mask : e_mask E = e_mask E0 }.
(** One chain, without chained consolidations (see C16). *)
Record one_chain (E0 : env) : Prop := OneChain {
  on_wf : wf_env E0;
  on_order : reflects E0 E0;
  on_settled : settled E0 }.

(** What a process is told at a step. *)
Definition watches (nd0 : node) (E0 : env) (e : event) : Prop :=
  match e with Tick a => echoes nd0 (an_node a) ∧ reflects E0 (an_env a) | _ => True end.
(** The processes of one deployment that all watch this chain. Each starts from nothing, from its own files, or from
    the state that another one of them serves at that time; signals and crashes come at any time. *)
Inductive crew (sha H : string → string) (c0 : config) (nd0 : node) (E0 : env) : life → Prop :=
  | crew_empty : crew sha H c0 nd0 E0 (Down ∅)
  | crew_event e L sent L' : crew sha H c0 nd0 E0 L → typed_event e → watches nd0 E0 e →
      live sha H c0 e L = (sent, L') → crew sha H c0 nd0 E0 L'
  | crew_sync L E m E' w r raw onchain sent L' : crew sha H c0 nd0 E0 L → crew sha H c0 nd0 E0 (Up m) →
      serve sha E' GetState w (m_or m) = Ok r → sent_state r = Fetched 200 (Some raw) →
      live sha H c0 (Start E (Some raw) onchain) L = (sent, L') → crew sha H c0 nd0 E0 L'.

(** Equal but for the recorded hash and the checkpoints frozen so far. *)
Definition same_work (a b : oracle) : Prop :=
  or_cfg a = or_cfg b ∧ set_hash "" (set_committed ∅ (or_st a)) = set_hash "" (set_committed ∅ (or_st b)).

(** [ca] holds no duties, or those that the chain has for its epoch. *)
Definition told (nd0 : node) (ca : cache) : Prop := ca_duties ca = [] ∨ nd_duties nd0 (ca_epoch ca) = Some (ca_duties ca).
(** [fb] is fetched for [slot] from a node that watches the chain. *)
Definition fetches (nd0 : node) (slot : N) (fb : fullblock) : Prop :=
  ∃ nd E pool all s ca ca', echoes nd0 nd ∧ told nd0 ca ∧ fetch_full_block nd E pool all slot s ca = Ok (fb, ca').
