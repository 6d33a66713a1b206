(** S_Host.v -- what the host types and what it means, independent of the model of HostUART. *)
From Verif Require Import Base M_Message S_Message D_Host.

(** Line ends: LF or CR. *)
Definition is_nl (c : Z) : bool := (c =? 10) || (c =? 13).
(** The complete lines of a text (without their line ends); [acc] is the line begun so far. *)
Fixpoint lines_of (acc l : list Z) : list (list Z) :=
  match l with
  | [] => []
  | c :: t => if is_nl c then acc :: lines_of [] t else lines_of (acc ++ [c]) t
  end.
(** Characters delivered by a call. *)
Definition delivered (op : host_op) : list Z :=
  match op with OpCheck _ _ cs => cs | OpIrq _ cs => cs | _ => [] end.
Definition typed (l : list (Z * host_op)) : list Z := flat_map (fun e => delivered (snd e)) l.

Definition ends_nl (l : list Z) : bool := match rev l with c :: _ => is_nl c | [] => false end.
Definition no_nl (l : list Z) : Prop := Forall (fun c => is_nl c = false) l.
(** Input at the pace of the polls: between two Checks at most one line end arrives, as the last
    character; lines are shorter than the buffer; no NUL characters.  [acc]: unfinished line. *)
Fixpoint paced (acc : list Z) (l : list (Z * host_op)) : Prop :=
  match l with
  | [] => True
  | (_, op) :: r =>
      let total := acc ++ delivered op in
      no_nl (removelast total) /\ (length total <= 128)%nat /\ (length total = 128%nat -> ends_nl total = true) /\
      Forall is_char (delivered op) /\
      paced (match op with OpCheck _ _ _ => if ends_nl total then [] else total | _ => total end) r
  end.
(** The lines each Check completes, with the time of the Check. *)
Fixpoint paced_lines (acc : list Z) (l : list (Z * host_op)) : list (Z * list Z * list Z) :=
  match l with
  | [] => []
  | (now, op) :: r =>
      let total := acc ++ delivered op in
      match op with
      | OpCheck _ junk _ => if ends_nl total then (now, junk, removelast total) :: paced_lines [] r else paced_lines total r
      | _ => paced_lines total r
      end
  end.

(** What the firmware state says about host input: offset of the host clock, messages to transmit,
    whether the bootloader was entered. *)
Record host_view : Set := VIEW { v_time : Z; v_msgs : list message; v_boot : bool }.
(** Milliseconds since boot, as the 32-bit counter shows them. *)
Definition ms_counter (now : Z) : Z := u32 (now / 1000).
(** The documented effect of a line. *)
Definition boot_command (line : list Z) : bool :=
  if list_eq_dec Z.eq_dec (firstn 7 line) (59 :: 33 :: 66 :: 76 :: 68 :: 33 :: 59 :: []) then true else false.
Definition is_comment (line : list Z) : bool :=
  match line with [] => true | c :: _ => (c =? 35) || (c =? 59) end.
Definition line_effect (v : host_view) (e : Z * list Z * list Z) : res host_view :=
  let '(now, junk, line) := e in
  if boot_command line then Ok (VIEW (v_time v) (v_msgs v) true)
  else if is_comment line then Ok v
  else
    let* m := msg_parse pico junk line in
    Ok (VIEW (if 0 <? m_time m then s64 (m_time m - ms_counter now) else v_time v)
             (if (0 <? m_length m)%nat && (length (v_msgs v) <? 8)%nat then v_msgs v ++ [m] else v_msgs v)
             (v_boot v)).

(** The message a line asks to transmit, if any. *)
Definition line_message (junk line : list Z) : option message :=
  if boot_command line || is_comment line then None
  else match msg_parse pico junk line with
       | Ok m => if (0 <? m_length m)%nat then Some m else None
       | UB _ => None
       end.
(** The first line of a text, if it contains a line end. *)
Definition first_line (l : list Z) : option (list Z) :=
  match lines_of [] l with [] => None | x :: _ => Some x end.
(** What the firmware state says about host input. *)
Definition view_of (h : M_HostUart.host) : host_view := VIEW (M_HostUart.h_time h) (pending h) (M_HostUart.h_boot h).
Definition messages (l : list (Z * list Z * list Z)) : list message :=
  flat_map (fun e => match line_message (snd (fst e)) (snd e) with Some m => [m] | None => [] end) l.
(** Sent messages with the error flag after the call. *)
Definition sends (o : list host_out) : list (message * bool) :=
  flat_map (fun x => match x with OSent m _ e => [(m, e)] | _ => [] end) o.

(** The line buffer is full and contains no line end. *)
Definition stuck (h : M_HostUart.host) : Prop := length (received h) = 128%nat /\ no_nl (received h).
