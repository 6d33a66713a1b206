(** D_UartPio.v -- runs of the class UARTPio (uart_pio.cpp:44-92) with what can be seen of them. *)
From Verif Require Import Base M_Message M_Tx S_UartPio.

(** What a hardware event shows, given the state before and after. *)
Definition hw_seen (h h' : pio_hw) (e : hw_event) : list useen :=
  match e with
  | HwPull => if (length (hw_txf h') <? length (hw_txf h))%nat then [Taken (hd 0 (hw_txf h))] else []
  | HwStart => if negb (hw_irq h) && hw_irq h' then [Begun] else []
  | HwDone => if hw_irq h && negb (hw_irq h') then [Ended] else []
  | HwDma => []
  end.
(** A message is rejected if DataWaiting() before the call or its length is above 32, otherwise accepted; C122 says what this means. *)
Definition u_step (h : pio_hw) (op : uop) : res (pio_hw * list useen) :=
  match op with
  | USend m => let* h' := hw_send h m in
      Ok (h', if hw_data_waiting h || (32 <? m_length m)%nat then [Rejected] else [Accepted (firstn (m_length m) (m_data m))])
  | UClear => Ok (hw_clear_fifo h, [Cleared])
  | UError => let '(h', b) := hw_read_error h in Ok (h', [Answered b])
  | UShutdown b => Ok (hw_enable_shutdown h b, [])
  | UHw e => let h' := hw_step h e in Ok (h', hw_seen h h' e)
  end.
Fixpoint u_run (h : pio_hw) (l : list uop) : res (pio_hw * list useen) :=
  match l with [] => Ok (h, []) | op :: t => let* (h1, o) := u_step h op in let* (h2, o2) := u_run h1 t in Ok (h2, o ++ o2) end.
