(** S_TxIl.v -- schedules of the transmit state machine in which the hardware works during the calls (C127). *)
From Verif Require Import Base M_Message M_Tx D_Tx M_TxIl.

(** As in D_Tx, but Update may have hardware events inside. *)
Inductive tx_iev : Set :=
| Plain (ev : tx_ev)
| During (busy rxerr rxvalid : bool) (c : Z) (g : gaps).
Definition tx_ievent (p : platform) (s : tx_sys) (e : Z * tx_iev) : res (tx_sys * option bool) :=
  match snd e with
  | Plain ev => tx_event p s (fst e, ev)
  | During busy re rv c g => let* s' := tx_update_il p (fst e) (fst s) (snd s) busy re rv c g in Ok (s', None)
  end.
Definition tx_irun (j1 j2 : list Z) (l : list (Z * tx_iev)) : res (tx_sys * list (option bool)) :=
  mrun (tx_ievent pico) (tx_new hw_new j1 j2) l.

(** All that happens inside one Update, in order. *)
Definition in_gaps (g : gaps) : list hw_event := g_flag g ++ g_fifo g ++ g_send g ++ g_abort g ++ g_mid g ++ g_abort2 g.
(** [a] is [b] with some elements left out. *)
Inductive sublist {A : Type} : list A -> list A -> Prop :=
| sl_nil : forall b, sublist [] b
| sl_keep : forall x a b, sublist a b -> sublist (x :: a) (x :: b)
| sl_skip : forall x a b, sublist a b -> sublist a (x :: b).
(** A schedule without anything inside a call, made from [l] by letting some of the events inside a call take place before the call, the
    rest after it, and some - those without effect - not at all. *)
Inductive serial : list (Z * tx_iev) -> list (Z * tx_ev) -> Prop :=
| se_nil : serial [] []
| se_plain : forall now ev l l', serial l l' -> serial ((now, Plain ev) :: l) ((now, ev) :: l')
| se_during : forall now busy re rv c g a b l l', sublist (a ++ b) (in_gaps g) -> serial l l' ->
    serial ((now, During busy re rv c g) :: l)
           (map (fun x => (now, Hw x)) a ++ (now, Update busy re rv c) :: map (fun x => (now, Hw x)) b ++ l').
(** The answers of Error(). *)
Definition answers (o : list (option bool)) : list bool := flat_map (fun x => match x with Some b => [b] | None => [] end) o.
(** The DMA channel moves nothing between Transmitting()'s look at the FIFO and its look at the channel. *)
Definition dma_still (e : Z * tx_iev) : Prop :=
  match snd e with During _ _ _ _ g => ~ In HwDma (g_fifo g) | Plain _ => True end.
(** Arguments of their C types, messages of 1 to 32 bytes. *)
Definition iev_ok (e : Z * tx_iev) : Prop :=
  match snd e with Plain ev => ev_ok 1 (fst e, ev) | During _ _ _ c _ => 0 <= c < 256 end.
