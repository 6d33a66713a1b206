(** S_TxDone.v -- what Done() is about (C130). *)
From Verif Require Import Base M_Message M_Tx D_Tx.

(** In [l2], the schedule after a WakeAndTransmit([m]), [m] was handed to the empty transmitter and afterwards as many bytes were received as [m] has, without
    a receive error; all but perhaps the last of them are those of [m]. *)
Definition heard (j1 j2 : list Z) (base l2 : list (Z * tx_ev)) (m : message) : Prop :=
  exists ha hb hc, l2 = ha ++ hb ++ hc /\ handed_over j1 j2 (base ++ ha) (tx_bytes m) /\ length (echoes hb) = m_length m /\ no_rx_error hb /\
    removelast (echoes hb) = firstn (m_length m - 1) (tx_bytes m).
(** No WakeAndTransmit. *)
Definition no_wake (e : Z * tx_ev) : Prop := match snd e with Wake _ => False | _ => True end.
