(** M_Fifo.v -- models of pico/src/fifo_irqsafe.hpp and
    pico/src/line_receiver_irqsafe.hpp.

    Every public method body runs between save_and_disable_interrupts() and
    restore_interrupts(), and both users of an instance (main loop and
    on_uart_irq) run on core0, so one method call is one atomic step. *)
From Verif Require Import Base.

(** fifo_irqsafe.hpp:108-112.  off_read/off_write/length are uint32_t bounded by N. *)
Record fifo (A : Type) : Type :=
  FF { ff_data : list A; ff_rd : nat; ff_wr : nat; ff_len : nat }.
Arguments FF {A}. Arguments ff_data {A}. Arguments ff_rd {A}.
Arguments ff_wr {A}. Arguments ff_len {A}.

Section Fifo.
  Context {A : Type}.
  Variable N : nat.

  (** fifo_irqsafe.hpp:22-23 -- default constructor, data{} value-initialised to [dflt]. *)
  Definition ff_new (dflt : A) : fifo A := FF (repeat dflt N) 0 0 0.

  (** fifo_irqsafe.hpp:14-20 -- FifoIrqSafe(init): full with the N items of init
      (init has N cells). *)
  Definition ff_new_init (init : list A) : fifo A := FF (firstn N init) 0 0 N.

  (** fifo_irqsafe.hpp:27-45 -- Push. *)
  Definition ff_push (f : fifo A) (x : A) : res (fifo A * bool) :=
    if (ff_len f <? N)%nat then
      let* d := aset (ff_data f) (ff_wr f) x in
      let wr := S (ff_wr f) in
      Ok (FF d (ff_rd f) (if (wr =? N)%nat then 0%nat else wr) (S (ff_len f)), true)
    else Ok (f, false).

  (** fifo_irqsafe.hpp:49-67 -- Pop; [None] when it returns false. *)
  Definition ff_pop (f : fifo A) : res (fifo A * option A) :=
    if (0 <? ff_len f)%nat then
      let* x := aget (ff_data f) (ff_rd f) in
      let rd := S (ff_rd f) in
      Ok (FF (ff_data f) (if (rd =? N)%nat then 0%nat else rd) (ff_wr f) (ff_len f - 1), Some x)
    else Ok (f, None).

  (** fifo_irqsafe.hpp:69-75 *)
  Definition ff_length (f : fifo A) : nat := ff_len f.
  (** fifo_irqsafe.hpp:77-79 *)
  Definition ff_empty (f : fifo A) : bool := (ff_len f =? 0)%nat.
  (** fifo_irqsafe.hpp:81-83 *)
  Definition ff_full (f : fifo A) : bool := (ff_len f =? N)%nat.
  (** fifo_irqsafe.hpp:85-91 *)
  Definition ff_clear (f : fifo A) : fifo A := FF (ff_data f) 0 0 0.
  (** fifo_irqsafe.hpp:96-106 -- At(i): reads data[i], not data[off_read + i]. *)
  Definition ff_at (f : fifo A) (i : nat) : res A :=
    let* _ := assert_ (i <? N)%nat in aget (ff_data f) i.
End Fifo.

(** line_receiver_irqsafe.hpp:82-84 *)
Record linerx (A : Type) : Type := LR { lr_data : list A; lr_off : nat }.
Arguments LR {A}. Arguments lr_data {A}. Arguments lr_off {A}.

Section LineRx.
  Context {A : Type}.
  Variable N : nat.
  (** line_receiver_irqsafe.hpp:22-23 *)
  Definition lr_new (dflt : A) : linerx A := LR (repeat dflt N) 0.
  (** line_receiver_irqsafe.hpp:14-20 *)
  Definition lr_new_init (init : list A) : linerx A := LR (firstn N init) N.
  (** line_receiver_irqsafe.hpp:27-41 *)
  Definition lr_push (f : linerx A) (x : A) : res (linerx A * bool) :=
    if (lr_off f <? N)%nat then
      let* d := aset (lr_data f) (lr_off f) x in
      Ok (LR d (S (lr_off f)), true)
    else Ok (f, false).
  (** line_receiver_irqsafe.hpp:43-49 *)
  Definition lr_length (f : linerx A) : nat := lr_off f.
  (** line_receiver_irqsafe.hpp:51-53 *)
  Definition lr_empty (f : linerx A) : bool := (lr_off f =? 0)%nat.
  (** line_receiver_irqsafe.hpp:55-57 *)
  Definition lr_full (f : linerx A) : bool := (lr_off f =? N)%nat.
  (** line_receiver_irqsafe.hpp:59-63 *)
  Definition lr_clear (f : linerx A) : linerx A := LR (lr_data f) 0.
  (** line_receiver_irqsafe.hpp:67-77 *)
  Definition lr_at (f : linerx A) (i : nat) : res A :=
    let* _ := assert_ (i <? N)%nat in aget (lr_data f) i.
End LineRx.
