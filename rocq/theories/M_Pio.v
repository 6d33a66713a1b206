(** M_Pio.v -- a cycle-accurate interpreter for the RP2040 PIO instructions used by
    pico/src/p1p2_uart_tx.pio and pico/src/twos_complement.pio, and the two programs.

    Hardware semantics (RP2040 datasheet, chapter 3): one instruction per cycle plus its delay;
    side-set is applied in the first cycle of an instruction even if it stalls; a stalled
    instruction is retried, its delay is executed after it completes; [jmp x--] tests before
    decrementing; [mov osr, ...] and [pull] reset the output shift counter. *)
From Verif Require Import Base.

Inductive pio_cond : Set := CAlways | CNotY | CNotOsre | CXDec | CYDec.
Inductive pio_src : Set := SrcX | SrcY | SrcNull.
Inductive pio_op : Set :=
| OpJmp (c : pio_cond) (target : nat)
| OpIn (s : pio_src) (n : Z)
| OpOutY (n : Z)
| OpPull                       (* pull block *)
| OpPush                       (* push block *)
| OpMovOsrInv                  (* mov osr, ~osr *)
| OpIrq (set : bool)           (* irq set 0 / irq clear 0 *)
| OpSetX (v : Z)
| OpNop.
Record pio_instr : Set := PI { i_op : pio_op; i_side : option Z; i_delay : nat }.

(** State of one state machine with its two FIFOs. *)
Record pio : Set := PIO {
  p_pc : nat; p_x : Z; p_y : Z; p_osr : Z; p_oc : Z; p_isr : Z;
  p_wait : nat;             (* delay cycles left *)
  p_pins : Z; p_irq : bool;
  p_tx : list Z; p_rx : list Z }.

Section Exec.
  Variable prog : list pio_instr.
  Variable threshold : Z.       (* pull threshold for OSRE *)

  Definition next_pc (pc : nat) : nat := if (S pc =? length prog)%nat then 0%nat else S pc.

  (** One clock cycle.  Both programs configure OUT and IN to shift right.
      The RX FIFO is modelled as unbounded: DMA drains it (adc.cpp:85-107). *)
  Definition pio_cycle (s : pio) : pio :=
    match p_wait s with
    | S w => PIO (p_pc s) (p_x s) (p_y s) (p_osr s) (p_oc s) (p_isr s) w (p_pins s) (p_irq s) (p_tx s) (p_rx s)
    | O =>
        match nth_error prog (p_pc s) with
        | None => s
        | Some i =>
            let pins := match i_side i with Some v => v | None => p_pins s end in
            let n := next_pc (p_pc s) in
            let d := i_delay i in
            match i_op i with
            | OpNop => PIO n (p_x s) (p_y s) (p_osr s) (p_oc s) (p_isr s) d pins (p_irq s) (p_tx s) (p_rx s)
            | OpIrq b => PIO n (p_x s) (p_y s) (p_osr s) (p_oc s) (p_isr s) d pins b (p_tx s) (p_rx s)
            | OpSetX v => PIO n v (p_y s) (p_osr s) (p_oc s) (p_isr s) d pins (p_irq s) (p_tx s) (p_rx s)
            | OpMovOsrInv => PIO n (p_x s) (p_y s) (Z.lxor (p_osr s) 4294967295) 0 (p_isr s) d pins (p_irq s) (p_tx s) (p_rx s)
            | OpPull =>
                match p_tx s with
                | [] => PIO (p_pc s) (p_x s) (p_y s) (p_osr s) (p_oc s) (p_isr s) 0 pins (p_irq s) [] (p_rx s)
                | v :: t => PIO n (p_x s) (p_y s) v 0 (p_isr s) d pins (p_irq s) t (p_rx s)
                end
            | OpPush => PIO n (p_x s) (p_y s) (p_osr s) (p_oc s) 0 d pins (p_irq s) (p_tx s) (p_rx s ++ [p_isr s])
            | OpOutY k =>
                PIO n (p_x s) (Z.land (p_osr s) (2 ^ k - 1)) (Z.shiftr (p_osr s) k) (Z.min 32 (p_oc s + k))
                    (p_isr s) d pins (p_irq s) (p_tx s) (p_rx s)
            | OpIn src k =>
                let v := match src with SrcX => p_x s | SrcY => p_y s | SrcNull => 0 end in
                PIO n (p_x s) (p_y s) (p_osr s) (p_oc s)
                    (Z.lor (Z.shiftr (p_isr s) k) (Z.shiftl (Z.land v (2 ^ k - 1)) (32 - k)))
                    d pins (p_irq s) (p_tx s) (p_rx s)
            | OpJmp c tgt =>
                let '(taken, x, y) :=
                  match c with
                  | CAlways => (true, p_x s, p_y s)
                  | CNotY => (p_y s =? 0, p_x s, p_y s)
                  | CNotOsre => (p_oc s <? threshold, p_x s, p_y s)
                  | CXDec => (negb (p_x s =? 0), u32 (p_x s - 1), p_y s)
                  | CYDec => (negb (p_y s =? 0), p_x s, u32 (p_y s - 1))
                  end in
                PIO (if taken then tgt else n) x y (p_osr s) (p_oc s) (p_isr s) d pins (p_irq s) (p_tx s) (p_rx s)
            end
        end
    end.

  (** The bytes [arr] reach the TX FIFO (DMA), then one cycle runs. *)
  Definition pio_feed (s : pio) (arr : list Z) : pio :=
    pio_cycle (PIO (p_pc s) (p_x s) (p_y s) (p_osr s) (p_oc s) (p_isr s) (p_wait s) (p_pins s) (p_irq s)
                   (p_tx s ++ arr) (p_rx s)).

  (** Run along an arrival schedule (one list of words per cycle); collect the pin levels driven
      in each cycle. *)
  Fixpoint pio_run (s : pio) (sched : list (list Z)) : list Z * pio :=
    match sched with
    | [] => ([], s)
    | a :: t =>
        let s' := pio_feed s a in
        let '(tr, sf) := pio_run s' t in
        (p_pins s' :: tr, sf)
    end.
End Exec.

(** State after pio_sm_init + enable (p1p2_uart_tx.pio:134-135, twos_complement.pio:83-84). *)
Definition pio_init : pio := PIO 0 0 0 0 32 0 0 0 false [] [].

(** ** p1p2_uart_tx.pio:25-75.  Levels: ONE = 2, IDLE = 1, ZERO_UP = 3, ZERO_DOWN = 0. *)
Definition L_ONE : Z := 2.
Definition L_IDLE : Z := 1.
Definition L_UP : Z := 3.
Definition L_DOWN : Z := 0.
Definition pside (op : pio_op) (lvl : Z) (d : nat) : pio_instr := PI op (Some lvl) d.
Definition tx_program : list pio_instr := [
  (*  0 next_byte:     *) pside (OpIrq false) L_IDLE 0;
  (*  1                *) pside OpPull L_IDLE 0;
  (*  2                *) pside (OpIrq true) L_UP 7;
  (*  3                *) pside OpNop L_IDLE 5;
  (*  4 loop_odd:      *) pside (OpOutY 1) L_IDLE 0;
  (*  5                *) pside (OpJmp CNotY 9) L_IDLE 0;
  (*  6 send_1_odd:    *) pside OpNop L_ONE 7;
  (*  7                *) pside OpNop L_IDLE 3;
  (*  8                *) pside (OpJmp CAlways 20) L_IDLE 0;
  (*  9 send_0_odd:    *) pside OpNop L_DOWN 7;
  (* 10                *) pside OpNop L_IDLE 3;
  (* 11                *) pside (OpJmp CAlways 26) L_IDLE 0;
  (* 12 loop_even:     *) pside (OpOutY 1) L_IDLE 0;
  (* 13                *) pside (OpJmp CNotY 17) L_IDLE 0;
  (* 14 send_1_even:   *) pside OpNop L_ONE 7;
  (* 15                *) pside OpNop L_IDLE 3;
  (* 16                *) pside (OpJmp CAlways 26) L_IDLE 0;
  (* 17 send_0_even:   *) pside OpNop L_UP 7;
  (* 18                *) pside OpNop L_IDLE 3;
  (* 19                *) pside (OpJmp CAlways 20) L_IDLE 0;
  (* 20 loop_end_odd:  *) pside (OpJmp CNotOsre 4) L_IDLE 0;
  (* 21                *) pside OpNop L_IDLE 1;
  (* 22                *) pside OpNop L_DOWN 7;
  (* 23                *) pside OpNop L_IDLE 7;
  (* 24                *) pside OpNop L_ONE 7;
  (* 25                *) pside (OpJmp CAlways 0) L_IDLE 4;
  (* 26 loop_end_even: *) pside (OpJmp CNotOsre 12) L_IDLE 0;
  (* 27                *) pside OpNop L_IDLE 1;
  (* 28                *) pside OpNop L_ONE 7;
  (* 29                *) pside OpNop L_IDLE 7;
  (* 30                *) pside OpNop L_ONE 7;
  (* 31                *) pside (OpJmp CAlways 0) L_IDLE 4 ].
(** p1p2_uart_tx.pio:115: pull threshold 8. *)
Definition tx_run : pio -> list (list Z) -> list Z * pio := pio_run tx_program 8.

(** ** twos_complement.pio:22-73 (no side-set). *)
Definition pplain (op : pio_op) (d : nat) : pio_instr := PI op None d.
Definition tc_program : list pio_instr := [
  (*  0 entry:        *) pplain (OpSetX 7) 0;
  (*  1               *) pplain OpPull 0;
  (*  2 next_0:       *) pplain (OpOutY 1) 0;
  (*  3               *) pplain (OpIn SrcY 1) 0;
  (*  4               *) pplain (OpJmp CXDec 8) 0;
  (*  5               *) pplain (OpJmp CYDec 13) 0;
  (*  6               *) pplain (OpSetX 0) 0;
  (*  7               *) pplain (OpJmp CAlways 13) 0;
  (*  8 not_done_yet: *) pplain (OpJmp CNotY 2) 0;
  (*  9               *) pplain OpMovOsrInv 0;
  (* 10 next_invert:  *) pplain (OpOutY 1) 0;
  (* 11               *) pplain (OpIn SrcY 1) 0;
  (* 12               *) pplain (OpJmp CXDec 10) 0;
  (* 13 done:         *) pplain (OpIn SrcX 8) 0;
  (* 14               *) pplain (OpIn SrcNull 16) 0;
  (* 15               *) pplain OpPush 0;
  (* 16               *) pplain OpPull 7;
  (* 17               *) pplain (OpOutY 8) 7;
  (* 18               *) pplain (OpIn SrcY 8) 7;
  (* 19               *) pplain (OpIn SrcNull 24) 7;
  (* 20               *) pplain OpPush 0;
  (* 21               *) pplain (OpJmp CAlways 0) 0 ].
(** twos_complement.pio:81: pull threshold 16 (no autopull; OSRE is not tested). *)
Definition tc_run : pio -> list (list Z) -> list Z * pio := pio_run tc_program 16.
