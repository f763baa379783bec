(** Vocabulary for two saves at the same time (C102). *)
From Verif Require Export Disk MainLoop LoopSpec.

(** The text that a save writes. *)
Definition saved_text (sha : string → string) (s : ost) : list ascii := list_ascii_of_string (marshal (hash_state sha s)).
(** [a] written over the beginning of [b]. *)
Definition over (a b : list ascii) : list ascii := a ++ drop (length a) b.
(** Every write call of the schedule takes the rest of the text. *)
Definition at_once (n : nat) (l : list (bool * nat)) : Prop := Forall (λ x, (n ≤ x.2)%nat) l.
(** A start that finds this text in state.json ends the process. *)
Definition no_start_from (sha H : string → string) (c0 : config) (s : list ascii) : Prop :=
  ∀ E slot fs, lifetime sha H c0 [Start E None slot] (Down (<[state_path := string_of_list_ascii s]> fs)) =
    ([], Down (<[state_path := string_of_list_ascii s]> fs)).
