(** M_Dma.v -- the DMA channels at the level of addresses and bytes (RP2040 datasheet, DMA): channel2 of the ADC as configured in adc.cpp:82-106 and
    restarted in adc.cpp:137-151, and the transmitter's channel as configured in uart_pio.cpp:16-35 and started in uart_pio.cpp:63-80.
    Times, priorities and the arbitration between channels are left out: a transfer is one step. *)
From Verif Require Import Base M_Message M_Adc M_Tx.

(** Memory: a byte (0..255) at every address; 16-bit values are little-endian. *)
Definition memory : Set := Z -> Z.
Definition store8 (m : memory) (a v : Z) : memory := fun x => if x =? a then v else m x.
Definition store16 (m : memory) (a v : Z) : memory := store8 (store8 m a (u8 v)) (a + 1) (u8 (Z.shiftr v 8)).
Definition load16 (m : memory) (a : Z) : Z := s16 (m a + 256 * m (a + 1)).

(** The registers of a channel that writes to memory: write address, remaining transfers. *)
Record wchannel : Set := WCH { wc_addr : Z; wc_count : Z }.
(** adc.cpp:95: channel_config_set_ring(&c, true, 9). *)
Definition RING_BITS : Z := 9.
(** adc.cpp:85: DMA_SIZE_16. *)
Definition TRANSFER_SIZE : Z := 2.
(** Datasheet, CTRL.RING_SIZE: on an increment only the low RING_SIZE bits of the address change. *)
Definition wrapped (a : Z) : Z := a - a mod 2 ^ RING_BITS + (a + TRANSFER_SIZE) mod 2 ^ RING_BITS.
(** One transfer of the value [v] from the PIO's FIFO; a channel that has used up its count moves nothing. *)
Definition dma_move (s : memory * wchannel) (v : Z) : memory * wchannel :=
  let '(m, c) := s in
  if wc_count c =? 0 then s else (store16 m (wc_addr c) v, WCH (wrapped (wc_addr c)) (wc_count c - 1)).
(** adc.cpp:145-150 -- DMARestart: write address and transfer count of channel2, then the start. *)
Definition dma_restart (data : Z) (s : memory * wchannel) : memory * wchannel := (fst s, WCH data TC_INIT).

(** The transmitter: uart_pio.hpp:42 Data, the channel's read address (as an offset from Data) and remaining transfers, the rest as in M_Tx.pio_hw. *)
Record txdma : Set := TXD { xd_error : bool; xd_data : list Z; xd_read : nat; xd_count : nat; xd_txf : list Z; xd_sm : sm_state; xd_shutdown : bool }.
(** uart_pio.cpp:10-40; Data{} is zeroed, the count is 0. *)
Definition xd_new : txdma := TXD false (repeat 0 32) 0 0 [] SmIdle true.
(** uart_pio.cpp:83-85 *)
Definition xd_busy (x : txdma) : bool := negb (xd_count x =? 0)%nat.
(** uart_pio.cpp:49-53 *)
Definition xd_transmitting (x : txdma) : bool :=
  match xd_sm x with SmShifting => true | _ => false end || negb (match xd_txf x with [] => true | _ => false end) || xd_busy x.
(** uart_pio.cpp:63-80 -- Send: the message is copied over the buffer, then the channel is pointed at it and started. *)
Definition xd_send (x : txdma) (m : message) : res txdma :=
  if xd_busy x then Ok (TXD true (xd_data x) (xd_read x) (xd_count x) (xd_txf x) (xd_sm x) (xd_shutdown x))
  else if (32 <? m_length m)%nat then Ok (TXD true (xd_data x) (xd_read x) (xd_count x) (xd_txf x) (xd_sm x) (xd_shutdown x))
  else
    let* d := copy_loop (m_data m) 0 (m_length m) (xd_data x) in
    Ok (TXD (xd_error x) d 0 (m_length m) (xd_txf x) (xd_sm x) (xd_shutdown x)).
(** uart_pio.cpp:56-59 -- ClearFifo: dma_channel_abort leaves the read address where it is. *)
Definition xd_clear (x : txdma) : txdma := TXD (xd_error x) (xd_data x) (xd_read x) 0 [] (xd_sm x) (xd_shutdown x).
(** uart_pio.cpp:44-46, 88-92 *)
Definition xd_enable_shutdown (x : txdma) (b : bool) : txdma := TXD (xd_error x) (xd_data x) (xd_read x) (xd_count x) (xd_txf x) (xd_sm x) b.
Definition xd_read_error (x : txdma) : txdma * bool := (TXD false (xd_data x) (xd_read x) (xd_count x) (xd_txf x) (xd_sm x) (xd_shutdown x), xd_error x).
(** The hardware on its own.  A DMA transfer reads the byte at the read address *now*: a byte outside Data is undefined behaviour. *)
Definition xd_step (x : txdma) (e : hw_event) : res txdma :=
  match e with
  | HwDma =>
      if xd_busy x && (length (xd_txf x) <? 8)%nat then
        let* b := aget (xd_data x) (xd_read x) in
        Ok (TXD (xd_error x) (xd_data x) (S (xd_read x)) (pred (xd_count x)) (xd_txf x ++ [b]) (xd_sm x) (xd_shutdown x))
      else Ok x
  | HwPull =>
      Ok match xd_txf x, xd_sm x with
         | b :: t, SmIdle => TXD (xd_error x) (xd_data x) (xd_read x) (xd_count x) t SmPulled (xd_shutdown x)
         | _, _ => x
         end
  | HwStart => Ok match xd_sm x with SmPulled => TXD (xd_error x) (xd_data x) (xd_read x) (xd_count x) (xd_txf x) SmShifting (xd_shutdown x) | _ => x end
  | HwDone => Ok match xd_sm x with SmShifting => TXD (xd_error x) (xd_data x) (xd_read x) (xd_count x) (xd_txf x) SmIdle (xd_shutdown x) | _ => x end
  end.
