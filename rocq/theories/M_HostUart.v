(** M_HostUart.v -- model of pico/src/host_uart.{hpp,cpp}, one method call at a time.
    (Interrupts that preempt a method are modelled separately in M_HostIrq.v.) *)
From Verif Require Import Base M_Fifo M_Message.

(** to_ms_since_boot(get_absolute_time()) of the pico SDK: a uint32_t. [now] in microseconds. *)
Definition ms_since_boot (now : Z) : Z := u32 (now / 1000).

(** host_uart.hpp:49-54.  [h_line] is the static buffer inside Message::c_str
    (message.cpp:23); [h_boot] records that reset_usb_boot was called (it does not return). *)
Record host : Set := HOST {
  h_time : Z;                 (* int64_t *)
  h_error : bool;
  h_tx : fifo Z;              (* FifoIrqSafe<uint8_t, 128>      *)
  h_rx : linerx Z;            (* LineReceiverIrqSafe<char, 128> *)
  h_msgs : fifo message;      (* FifoIrqSafe<Message, 8>        *)
  h_line : list Z;
  h_boot : bool }.

Definition set_tx (h : host) (f : fifo Z) := HOST (h_time h) (h_error h) f (h_rx h) (h_msgs h) (h_line h) (h_boot h).
Definition set_rx (h : host) (f : linerx Z) := HOST (h_time h) (h_error h) (h_tx h) f (h_msgs h) (h_line h) (h_boot h).
Definition set_msgs (h : host) (f : fifo message) := HOST (h_time h) (h_error h) (h_tx h) (h_rx h) f (h_line h) (h_boot h).
Definition set_herr (h : host) (b : bool) := HOST (h_time h) b (h_tx h) (h_rx h) (h_msgs h) (h_line h) (h_boot h).
Definition set_time_off (h : host) (t : Z) := HOST t (h_error h) (h_tx h) (h_rx h) (h_msgs h) (h_line h) (h_boot h).
Definition set_line (h : host) (l : list Z) := HOST (h_time h) (h_error h) (h_tx h) (h_rx h) (h_msgs h) l (h_boot h).
Definition set_boot (h : host) := HOST (h_time h) (h_error h) (h_tx h) (h_rx h) (h_msgs h) (h_line h) true.

(** host_uart.cpp:15-16 (static instance: c_str's buffer and the arrays start zeroed). *)
Definition host_new : host :=
  HOST 0 false (ff_new 128 0) (lr_new 128 0) (ff_new 8 (msg_new (repeat 0 32))) (repeat 0 128) false.

(** host_uart.cpp:152-154 -- SetTime *)
Definition host_set_time (now : Z) (h : host) (t : Z) : host :=
  set_time_off h (s64 (u64 (t - ms_since_boot now))).
(** host_uart.cpp:156-158 -- GetTime *)
Definition host_get_time (now : Z) (h : host) : Z := u64 (h_time h + ms_since_boot now).

(** host_uart.cpp:41-48 -- CheckRXFIFO; [cs] are the characters getchar_timeout_us(0) delivers
    before it returns a negative value. *)
Fixpoint check_rx_fifo (cs : list Z) (h : host) : res host :=
  match cs with
  | [] => Ok h
  | c :: t =>
      if negb (lr_full 128 (h_rx h)) then
        let* (r, _) := lr_push 128 (h_rx h) c in check_rx_fifo t (set_rx h r)
      else check_rx_fifo t h
  end.

(** host_uart.cpp:50-56 -- CheckTXFIFO; [budget] is how many more times uart_is_writable()
    answers true.  Returns the characters handed to putchar_raw. *)
Fixpoint check_tx_fifo (budget : nat) (f : fifo Z) : res (fifo Z * list Z) :=
  match budget with
  | O => Ok (f, [])
  | S b =>
      if ff_empty f then Ok (f, [])
      else
        let* (f1, c) := ff_pop 128 f in
        let* (f2, out) := check_tx_fifo b f1 in
        Ok (f2, match c with Some x => x :: out | None => out end)
  end.

(** host_uart.cpp:96-97: the seven comparisons, stopping at the first mismatch. *)
Definition bld_cmd : list Z := [59; 33; 66; 76; 68; 33; 59].    (* ";!BLD!;" *)
Fixpoint has_prefix (p l : list Z) : bool :=
  match p, l with
  | [], _ => true
  | x :: p', y :: l' => (x =? y) && has_prefix p' l'
  | _ :: _, [] => false
  end.

(** host_uart.cpp:95-112 -- OnLineReceived.  [line] is the C string; [junk] the uninitialised
    Data of the local Message. *)
Definition on_line_received (p : platform) (now : Z) (junk : list Z) (line : list Z) (h : host) : res host :=
  if has_prefix bld_cmd line then Ok (set_boot h)
  else if match line with [] => true | c :: _ => (c =? 35) || (c =? 59) end then Ok h
  else
    let* m := msg_parse p junk line in
    let h1 := if 0 <? m_time m then host_set_time now h (m_time m) else h in
    if (0 <? m_length m)%nat then
      let* (q, _) := ff_push 8 (h_msgs h1) m in Ok (set_msgs h1 q)
    else Ok h1.

(** host_uart.cpp:62-72 -- the loop of CheckRxLine from index [i]; Length() is re-read on every
    iteration.  [fuel] bounds the iterations (128 suffice, see P_HostUart.v).
    The NULs that Message(char* ) writes over ':' are not written back: the buffer is cleared
    right after and cells are always overwritten before they are read again. *)
Fixpoint rx_line_loop (p : platform) (now : Z) (junk : list Z) (fuel i : nat) (h : host) : res host :=
  match fuel with
  | O => Ok h
  | S f =>
      if (i <? lr_length (h_rx h))%nat then
        let* c := aget (lr_data (h_rx h)) i in
        if (c =? 10) || (c =? 13) then
          if (i =? 0)%nat then
            rx_line_loop p now junk f (S i) (set_rx h (lr_clear (h_rx h)))
          else
            let* d := aset (lr_data (h_rx h)) i 0 in
            let h1 := set_rx h (LR d (lr_off (h_rx h))) in
            let* h2 := on_line_received p now junk (until_nul d) h1 in
            rx_line_loop p now junk f (S i) (set_rx h2 (lr_clear (h_rx h2)))
        else rx_line_loop p now junk f (S i) h
      else Ok h
  end.
(** host_uart.cpp:58-74 -- CheckRxLine *)
Definition check_rx_line (p : platform) (now : Z) (junk : list Z) (h : host) : res host :=
  if lr_empty (h_rx h) then Ok h else rx_line_loop p now junk 129 0 h.

(** host_uart.cpp:76-80 -- Check *)
Definition host_check (p : platform) (now : Z) (junk : list Z) (budget : nat) (cs : list Z) (h : host)
  : res (host * list Z) :=
  let* (f, out) := check_tx_fifo budget (h_tx h) in
  let* h1 := check_rx_fifo cs (set_tx h f) in
  let* h2 := check_rx_line p now junk h1 in
  Ok (h2, out).

(** host_uart.cpp:82-84 *)
Definition host_has_data (h : host) : bool := negb (ff_empty (h_msgs h)).

(** host_uart.cpp:86-93 -- Pop *)
Definition host_pop (junk : list Z) (h : host) : res (host * message) :=
  if ff_empty (h_msgs h) then Ok (h, msg_new junk)
  else
    let* (q, m) := ff_pop 8 (h_msgs h) in
    Ok (set_msgs h q, match m with Some x => x | None => msg_new junk end).

(** host_uart.cpp:127-135: push the line's characters; false = returned early (fifo full). *)
Fixpoint send_chars (cs : list Z) (f : fifo Z) : res (fifo Z * bool) :=
  match cs with
  | [] => Ok (f, true)
  | c :: t =>
      if ff_full 128 f then Ok (f, false)
      else let* (f', _) := ff_push 128 f c in send_chars t f'
  end.

(** host_uart.cpp:136-145: push one terminator character or set the error flag. *)
Definition send_term (c : Z) (h : host) : res host :=
  if ff_full 128 (h_tx h) then Ok (set_herr h true)
  else let* (f, _) := ff_push 128 (h_tx h) c in Ok (set_tx h f).

(** host_uart.cpp:123-150 -- Send; returns characters written to the UART by the final pump. *)
Definition host_send (budget : nat) (h : host) (m : message) : res (host * list Z) :=
  let* buf := msg_c_str m (h_line h) in
  let h0 := set_line h buf in
  let* (f, complete) := send_chars (cstring_at buf 0) (h_tx h0) in
  if negb complete then Ok (set_herr (set_tx h0 f) true, [])
  else
    let* h1 := send_term 13 (set_tx h0 f) in
    let* h2 := send_term 10 h1 in
    let* (f2, out) := check_tx_fifo budget (h_tx h2) in
    Ok (set_tx h2 f2, out).

(** host_uart.cpp:114-121 -- UpdateAndSend(m): returns the host, the updated message, output. *)
Definition host_update_and_send (now : Z) (budget : nat) (h : host) (m : message)
  : res (host * message * list Z) :=
  let t := host_get_time now h in
  let st := if h_error h then Z.lor (m_status m) STATUS_ERR_OVERFLOW else m_status m in
  let m' := MSG st t (m_data m) (m_length m) in
  let* (h', out) := host_send budget (set_herr h false) m' in
  Ok (h', m', out).
