(** S_Dma.v -- specification for the DMA channels (C131, C132). *)
From Verif Require Import Base M_Message M_Adc M_Tx M_Dma.

(** The sampling channel: transfers and restarts in any order. *)
Inductive dma_ev : Set := Move (v : Z) | Restart.
Definition dma_do (data : Z) (s : memory * wchannel) (e : dma_ev) : memory * wchannel :=
  match e with Move v => dma_move s v | Restart => dma_restart data s end.
(** What the software reads: the array int16_t data[256] (C: data[i] is at data + 2*i). *)
Definition array (m : memory) (data : Z) : list Z := map (fun i => load16 m (data + 2 * Z.of_nat i)) (seq 0 256).
(** The ring as the rest of the model has it (M_Adc.v). *)
Definition ring_do (r : dma_ring) (e : dma_ev) : dma_ring :=
  match e with Move v => ring_write r v | Restart => RING (rg_data r) 0 TC_INIT end.

(** The transmitter's calls and hardware steps; what a call answers. *)
Inductive tx_op : Set := OSend (m : message) | OClear | OShutdown (b : bool) | OError | OTransmitting | OHw (e : hw_event).
Definition xd_do (x : txdma) (o : tx_op) : res (txdma * option bool) :=
  match o with
  | OSend m => let* x' := xd_send x m in Ok (x', None)
  | OClear => Ok (xd_clear x, None)
  | OShutdown b => Ok (xd_enable_shutdown x b, None)
  | OError => let '(x', b) := xd_read_error x in Ok (x', Some b)
  | OTransmitting => Ok (x, Some (xd_transmitting x))
  | OHw e => let* x' := xd_step x e in Ok (x', None)
  end.
Definition hw_do (h : pio_hw) (o : tx_op) : res (pio_hw * option bool) :=
  match o with
  | OSend m => let* h' := hw_send h m in Ok (h', None)
  | OClear => Ok (hw_clear_fifo h, None)
  | OShutdown b => Ok (hw_enable_shutdown h b, None)
  | OError => let '(h', b) := hw_read_error h in Ok (h', Some b)
  | OTransmitting => Ok (h, Some (hw_transmitting h))
  | OHw e => Ok (hw_step h e, None)
  end.
(** A message object. *)
Definition op_ok (o : tx_op) : Prop := match o with OSend m => length (m_data m) = 32%nat | _ => True end.
(** The same to everything outside: pins, FIFO, PIO, error flag; and the bytes still to be moved. *)
Definition same_hw (x : txdma) (h : pio_hw) : Prop :=
  hw_error h = xd_error x /\ hw_txf h = xd_txf x /\ hw_sm h = xd_sm x /\ hw_shutdown h = xd_shutdown x /\
  hw_dma h = firstn (xd_count x) (skipn (xd_read x) (xd_data x)).
