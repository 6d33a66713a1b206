(** D_TxClk.v -- the notions of D_Tx for schedules with clock readings (C133). *)
From Verif Require Import Base M_Message M_Tx D_Tx M_TxClk.

(** The events without the readings (at an arbitrary time: echoes, no_rx_error and line_held do not look at it). *)
Definition untimed (l : list (readings * tx_ev)) : list (Z * tx_ev) := map (fun e => (0, snd e)) l.
(** All fields but the deadline. *)
Definition same_but_deadline (x y : tx_sys) : Prop :=
  t_tx (fst x) = t_tx (fst y) /\ t_rx (fst x) = t_rx (fst y) /\ t_st (fst x) = t_st (fst y) /\ t_off (fst x) = t_off (fst y) /\ t_err (fst x) = t_err (fst y) /\
  snd x = snd y.
Definition busy_during_clk (j1 j2 : list Z) (base l : list (readings * tx_ev)) : Prop :=
  forall p q, l = p ++ q -> q <> [] -> exists s o, tx_run_clk j1 j2 (base ++ p) = Ok (s, o) /\ tx_is_idle (fst s) = false.
Definition handed_over_clk (j1 j2 : list Z) (l : list (readings * tx_ev)) (d : list Z) : Prop :=
  exists s o, tx_run_clk j1 j2 l = Ok (s, o) /\ hw_dma (snd s) = d /\ hw_txf (snd s) = [].
(** Every Update saw the line free. *)
Definition saw_free_clk (e : readings * tx_ev) : Prop := match snd e with Update busy _ _ _ => busy = false | _ => True end.
(** Consecutive Updates start (first reading) at most [g] apart, the first one at most [g] after [last]; none takes longer than [e]. *)
Fixpoint updates_every_clk (g e last : Z) (l : list (readings * tx_ev)) : Prop :=
  match l with
  | [] => True
  | (r, Update _ _ _ _) :: l' => r_error r <= last + g /\ Forall (fun n => r_error r <= n <= r_error r + e) [r_timedout r; r_enter r; r_next r; r_collision r] /\ updates_every_clk g e (r_error r) l'
  | _ :: l' => updates_every_clk g e last l'
  end.
