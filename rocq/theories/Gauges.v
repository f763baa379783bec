(** The gauges of Prometheus that the main loop sets: metrics/metrics.go and main.go:268-271, 366-369. They start at zero
    with the process. The gauge of the version is a constant and left out; those of HTTP are in Http.v. *)
From Verif Require Export MainLoop.

(** float64(x) of a uint64: the nearest number with 53 bits, in the middle the even one. main.go:269-271. *)
Definition float64 (n : N) : N :=
  if (n <? 2 ^ 53)%N then n else
  let k := (N.log2 n - 52)%N in
  let q := (n / 2 ^ k)%N in
  let r := (n mod 2 ^ k)%N in
  if (2 * r <? 2 ^ k)%N || ((2 * r =? 2 ^ k)%N && N.even q) then (q * 2 ^ k)%N else ((q + 1) * 2 ^ k)%N.

(** metrics/metrics.go:14-48. [g_known]: the labels of KnownRootAndSlot, slot and root, which have the value 1.
    Simplification: the slot is the number instead of its digits. *)
Record gauges := Gauges { g_distance : N; g_slot : N; g_block : N; g_known : list (N * string) }.
(** promauto.NewGauge and NewGaugeVec, metrics/metrics.go:14-48. *)
Definition no_gauges : gauges := Gauges 0 0 0 [].
(** WithLabelValues(...).Set(1): the series with these labels, new or not. main.go:367-369. *)
Definition label (x : N * string) (l : list (N * string)) : list (N * string) := if decide (x ∈ l) then l else l ++ [x].
(** What a step of the loop from [m] to [m'] sets: after a slot (main.go:266-271) and after freezing a checkpoint (367-369). *)
Definition set_gauges (a : answers) (m m' : machine) (g : gauges) : gauges :=
  let s := or_st (m_or m') in
  match m_pc m, m_pc m' with
  | Begin, Processed =>
      match an_final a with
      | Some f => Gauges (float64 (u64_sub f (st_latest s))) (float64 (st_latest s)) (float64 (st_latest_block s)) (g_known g)
      | None => g
      end
  | Freezing, Polling c => Gauges (g_distance g) (g_slot g) (g_block g) (label (oc_slot c, oc_root c) (g_known g))
  | _, _ => g
  end.
(** One event with the gauges: those of a process that is down are nowhere, a new one has new ones. main.go:126-493. *)
Definition live_gauges (sha H : string → string) (c0 : config) (x : life * gauges) (e : event) : life * gauges :=
  let L := (live sha H c0 e x.1).2 in
  (L, match x.1, L, e with
      | Down _, _, _ => no_gauges
      | Up m, Up m', Tick a => set_gauges a m m' x.2
      | Up _, _, _ => x.2
      end).
(** A whole life. main.go:126-493. *)
Definition gauged (sha H : string → string) (c0 : config) (l : list event) (x : life * gauges) : life * gauges :=
  fold_left (live_gauges sha H c0) l x.
