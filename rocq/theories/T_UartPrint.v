(** T_UartPrint.v -- property theorem C19, continued. *)
From Verif Require Import Base S_LineModes M_ShiftReg M_Uart D_Uart P_UartPrint.

(** C19 without parity, exactly: the oldest 160 of the 168 symbols (as int16_t) last taken in are printed, oldest first; zeros before the first. *)
Theorem C19_print_content_partial : forall l u outs, mrun ua_call (ua_new PARITY_NONE) l = Ok (u, outs) ->
  ua_print_shiftreg u = Ok (firstn 160 (lastn 168 (repeat 0 168 ++ taken_in (ua_new PARITY_NONE) l))).
Proof. exact print_content. Qed.
Print Assumptions C19_print_content_partial.
(** A quiet line, a pulse, 3 and -70000: the first call only leaves the idle state. *)
Example C19_content_ex : exists u outs, mrun ua_call (ua_new PARITY_NONE) ((0, 0, false) :: map (fun x => (x, 0, false)) ([7; 3; -70000] ++ repeat 0 149)) = Ok (u, outs) /\
  exists vs, ua_print_shiftreg u = Ok vs /\ length vs = 160%nat /\ skipn 14 vs = [0; 0; 7; 3; -4464] ++ repeat 0 141.
Proof.
  eexists _, _. split; [vm_compute; reflexivity|]. eexists. split; [vm_compute; reflexivity|]. split; vm_compute; reflexivity.
Qed.
