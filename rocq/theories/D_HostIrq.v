(** D_HostIrq.v -- observations of interrupted runs. *)
From Verif Require Import Base M_Fifo M_HostUart M_HostIrq S_Host.

(** The characters accepted into the output queue by a schedule, in order. *)
Fixpoint queued (l : list out_ev) (s : out_state) : list Z :=
  match l with
  | [] => []
  | e :: r =>
      match out_step s e with
      | Ok s1 => (match e with OutQueue c => if (ff_length (o_fifo s) <? ff_length (o_fifo s1))%nat then [c] else [] | _ => [] end) ++ queued r s1
      | UB _ => []
      end
  end.
(** Pop everything that is still queued. *)
Definition left_over (s : out_state) : list Z :=
  match check_tx_fifo 128 (o_fifo s) with Ok (_, out) => out | UB _ => [] end.
Definition holding (s : out_state) : list Z := match o_pc s with OutHolds c => [c] | _ => [] end.
(** No interrupt strikes between Pop and putchar_raw. *)
Fixpoint no_irq_in_gap (l : list out_ev) (s : out_state) : Prop :=
  match l with
  | [] => True
  | e :: r =>
      match e with OutIrq _ => holding s = [] | _ => True end /\
      match out_step s e with Ok s1 => no_irq_in_gap r s1 | UB _ => True end
  end.

(** Characters delivered by the UART, in order. *)
Fixpoint arrived (l : list in_ev) (s : in_state) : list Z :=
  match l with
  | [] => []
  | e :: r =>
      match in_step s e with
      | Ok s1 => (match e with
                  | InMain (Some c) => match i_pc s with InIdle => [c] | _ => [] end
                  | InIrq cs => cs
                  | _ => [] end) ++ arrived r s1
      | UB _ => []
      end
  end.
(** The characters in the line buffer. *)
Definition in_buffer (s : in_state) : list Z := firstn (lr_length (i_rx s)) (lr_data (i_rx s)).
(** A calm schedule: no interrupt delivers characters between getchar and Push or while a line is
    being handled; whenever characters arrive the buffer holds no complete line and they fit; at
    most one line end arrives at a time, as the last character. *)
Fixpoint calm (l : list in_ev) (s : in_state) : Prop :=
  match l with
  | [] => True
  | e :: r =>
      match e with
      | InIrq cs => i_pc s = InIdle /\ no_nl (in_buffer s) /\ no_nl (removelast cs) /\ (length (in_buffer s) + length cs <= 128)%nat
      | InMain (Some _) => i_pc s = InIdle -> no_nl (in_buffer s) /\ (length (in_buffer s) < 128)%nat
      | _ => True
      end /\
      match in_step s e with Ok s1 => calm r s1 | UB _ => True end
  end.
Definition nonempty (ls : list (list Z)) : list (list Z) := filter (fun l => match l with [] => false | _ => true end) ls.
(** Schedules in which the interrupt never delivers characters while a line is being handled (but may
    strike anywhere else). *)
Fixpoint no_irq_in_line (l : list in_ev) (s : in_state) : Prop :=
  match l with
  | [] => True
  | e :: r =>
      match e with InIrq cs => cs = [] \/ i_pc s <> InLine | _ => True end /\
      match in_step s e with Ok s1 => no_irq_in_line r s1 | UB _ => True end
  end.
