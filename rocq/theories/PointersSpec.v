(** Vocabulary for the memory of the amounts (C105). *)
From Verif Require Export Pointers Spec.

(** The pointers through which amounts are changed. *)
Inductive handle := OwnFees | OwnAcc (i : N) | OwnPend (i : N).
(** Where each of them points. *)
Definition place (h : hst) (o : handle) : option N :=
  match o with
  | OwnFees => Some (hs_fees h)
  | OwnAcc i => hi_acc <$> hs_vals h !! i
  | OwnPend i => hi_pend <$> hs_vals h !! i
  end.

(** No two of them point to the same object, none points to a collateral, to one of the objects in [R] (amounts that
    belong to somebody else, such as the recorded events), or to an address that is not in use. *)
Record apart (R : N → Prop) (h : hst) : Prop := Apart {
  ap_own : ∀ o1 o2 l, place h o1 = Some l → place h o2 = Some l → o1 = o2;
  ap_else : ∀ o l, place h o = Some l → ¬ R l;
  ap_coll : ∀ o l i v, place h o = Some l → hs_vals h !! i = Some v → hi_coll v ≠ l;
  ap_used : ∀ o l, place h o = Some l → (l < hs_new h)%N;
  ap_used_coll : ∀ i v, hs_vals h !! i = Some v → (hi_coll v < hs_new h)%N;
  ap_used_else : ∀ l, R l → (l < hs_new h)%N }.

(** The objects in [R] hold what they held. *)
Definition keeps (R : N → Prop) (h h' : hst) : Prop := ∀ l, R l → deref h' l = deref h l.

(** The pointers of a list of amounts. *)
Definition point_to (R : N → Prop) (h : hst) (ls : list N) (zs : list Z) : Prop := Forall2 (λ l z, R l ∧ deref h l = z) ls zs.

(** The pointer of the reward of a block, which may be nil. *)
Definition reward_at (R : N → Prop) (h : hst) (r : option N) (z : option Z) : Prop :=
  match r, z with
  | None, None => True
  | Some l, Some z => R l ∧ deref h l = z
  | _, _ => False
  end.
(** The objects that came with a block. *)
Definition brought (p : arrived) (l : N) : Prop := l ∈ ar_subs p ∨ l ∈ ar_don p ∨ ar_reward p = Some l.
(** They hold the amounts of the subscriptions, of the donations and the reward of the block [fb], which came when the
    configuration was [c] and the state [s]. *)
Definition as_came (h : hst) (p : arrived) (E : env) (fb : fullblock) (c : config) (s : ost) : Prop :=
  point_to (λ _, True) h (ar_subs p) (sub_coll <$> ev_subscribe (fb_events fb)) ∧
  (∃ don, get_donations E (c_pool c) fb = Ok don ∧ point_to (λ _, True) h (ar_don p) (er_amount <$> don)) ∧
  (∃ b, summarize E s (c_pool c) fb = Ok b ∧ reward_at (λ _, True) h (ar_reward p) (sb_reward b)).

(** An execution in memory, with what came with each block. *)
Inductive h_run : config * hst → list (env * fullblock) → list arrived → config * hst → Prop :=
| h_run_nil x : h_run x [] [] x
| h_run_cons c h E fb x n p l ps y : h_advance E fb c h = Done x (n, p) → h_run x l ps y →
    h_run (c, h) ((E, fb) :: l) (p :: ps) y.

(** The leaves with their balances read. *)
Definition leafs_at (h : hst) (ls : list (string * N)) : list rawleaf := (λ x, RawLeaf x.1 (deref h x.2)) <$> ls.
