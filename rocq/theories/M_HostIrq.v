(** M_HostIrq.v -- pico/src/host_uart.cpp with the UART interrupt (on_uart_irq, host_uart.cpp:9-13)
    preempting the main loop inside CheckTXFIFO, CheckRXFIFO and CheckRxLine.

    Steps are: one call of a FIFO method (atomic, see M_Fifo.v), one getchar_timeout_us, one
    putchar_raw, or one whole run of the interrupt handler (it runs on the same core and is never
    preempted by the main loop).
    Not modelled: the locking inside the pico SDK's putchar_raw/getchar_timeout_us. *)
From Verif Require Import Base M_Fifo M_HostUart.

(** ** Output: CheckTXFIFO (host_uart.cpp:50-56) *)

(** Where the main loop is. *)
Inductive out_pc : Set :=
| OutIdle                 (* outside, or at the loop condition (line 51)                      *)
| OutTested               (* loop condition was true, before Pop (line 53)                    *)
| OutHolds (c : Z).       (* Pop returned c, before putchar_raw(c) (line 54)                  *)
Record out_state : Set := OUT { o_fifo : fifo Z; o_pc : out_pc; o_uart : list Z }.
Definition out_new : out_state := OUT (ff_new 128 0) OutIdle [].

Inductive out_ev : Set :=
| OutQueue (c : Z)        (* main loop outside CheckTXFIFO: Send queues c (lines 129-134)     *)
| OutMain (w : bool)      (* main loop does the next step of CheckTXFIFO; w: uart_is_writable *)
| OutIrq (budget : nat).  (* the interrupt handler runs CheckTXFIFO                           *)
Definition out_step (s : out_state) (e : out_ev) : res out_state :=
  match e with
  | OutQueue c =>
      match o_pc s with
      | OutIdle => if ff_full 128 (o_fifo s) then Ok s
                   else let* (f, _) := ff_push 128 (o_fifo s) c in Ok (OUT f OutIdle (o_uart s))
      | _ => Ok s          (* not at this point of the program: no step *)
      end
  | OutMain w =>
      match o_pc s with
      | OutIdle => Ok (OUT (o_fifo s) (if w && negb (ff_empty (o_fifo s)) then OutTested else OutIdle) (o_uart s))
      | OutTested =>
          let* (f, c) := ff_pop 128 (o_fifo s) in
          Ok (OUT f (match c with Some x => OutHolds x | None => OutIdle end) (o_uart s))
      | OutHolds c => Ok (OUT (o_fifo s) OutIdle (o_uart s ++ [c]))
      end
  | OutIrq budget =>
      let* (f, out) := check_tx_fifo budget (o_fifo s) in
      Ok (OUT f (o_pc s) (o_uart s ++ out))
  end.
Fixpoint out_run (l : list out_ev) (s : out_state) : res out_state :=
  match l with [] => Ok s | e :: r => let* s1 := out_step s e in out_run r s1 end.

(** ** Input: CheckRXFIFO and CheckRxLine (host_uart.cpp:41-48, 58-74) *)

Inductive in_pc : Set :=
| InIdle                  (* outside or at a loop condition                                   *)
| InGot (c : Z)           (* getchar returned c, before Full/Push (lines 44-45)               *)
| InLine.                 (* OnLineReceived is running, before Clear (lines 68-69)            *)
(** [i_lines]: the strings passed to OnLineReceived so far. *)
Record in_state : Set := IN { i_rx : linerx Z; i_pc : in_pc; i_lines : list (list Z) }.
Definition in_new : in_state := IN (lr_new 128 0) InIdle [].

Inductive in_ev : Set :=
| InMain (c : option Z)   (* main loop step: getchar_timeout_us returned c / nothing; or Push; or
                             end of OnLineReceived and Clear                                  *)
| InScan                  (* main loop runs CheckRxLine up to the call of OnLineReceived      *)
| InIrq (cs : list Z).    (* the interrupt handler runs CheckRXFIFO and gets cs               *)
(** host_uart.cpp:41-48 on the buffer alone. *)
Fixpoint rx_all (cs : list Z) (r : linerx Z) : res (linerx Z) :=
  match cs with
  | [] => Ok r
  | c :: t => if negb (lr_full 128 r) then let* (r1, _) := lr_push 128 r c in rx_all t r1 else rx_all t r
  end.
(** host_uart.cpp:62-68: index of the first line end. *)
Fixpoint first_nl (l : list Z) : option nat :=
  match l with
  | [] => None
  | c :: t => if (c =? 10) || (c =? 13) then Some 0%nat else option_map S (first_nl t)
  end.
Definition in_step (s : in_state) (e : in_ev) : res in_state :=
  match e with
  | InMain c =>
      match i_pc s with
      | InIdle => Ok (IN (i_rx s) (match c with Some x => InGot x | None => InIdle end) (i_lines s))
      | InGot x => let* r := rx_all [x] (i_rx s) in Ok (IN r InIdle (i_lines s))
      | InLine => Ok (IN (lr_clear (i_rx s)) InIdle (i_lines s))
      end
  | InScan =>
      match i_pc s with
      | InIdle =>
          match first_nl (firstn (lr_length (i_rx s)) (lr_data (i_rx s))) with
          | None => Ok s
          | Some O => Ok (IN (lr_clear (i_rx s)) InIdle (i_lines s))
          | Some (S i) =>
              let* d := aset (lr_data (i_rx s)) (S i) 0 in
              Ok (IN (LR d (lr_off (i_rx s))) InLine (i_lines s ++ [firstn (S i) (lr_data (i_rx s))]))
          end
      | _ => Ok s
      end
  | InIrq cs => let* r := rx_all cs (i_rx s) in Ok (IN r (i_pc s) (i_lines s))
  end.
Fixpoint in_run (l : list in_ev) (s : in_state) : res in_state :=
  match l with [] => Ok s | e :: r => let* s1 := in_step s e in in_run r s1 end.
