(** Base.v -- vocabulary shared by every model file.

    * Undefined behaviour is a distinct outcome ([UB]) of every modelled
      function; nothing is assumed away.
    * C integers are mathematical [Z] with explicit wrap / overflow checks.
    * Arrays are lists with bounds-checked access.  *)
From Coq Require Export List ZArith Lia Bool Arith.
Export ListNotations.
Open Scope Z_scope.

(** Keep comparisons folded under [cbn]/[simpl] (proof engineering only). *)
Global Arguments Nat.ltb : simpl never.
Global Arguments Nat.leb : simpl never.
Global Arguments Nat.eqb : simpl never.

(** ** Outcomes *)

(** The kinds of undefined behaviour / abort the models distinguish. *)
Inductive ub_kind : Set :=
| OutOfBounds       (* array access outside its object                     *)
| SignedOverflow    (* int32_t arithmetic out of range                     *)
| AssertFailed.     (* assert() violated (abort, or fall into UB if NDEBUG) *)

Inductive res (A : Type) : Type :=
| Ok (a : A)
| UB (k : ub_kind).
Arguments Ok {A} a.
Arguments UB {A} k.

Definition bind {A B} (x : res A) (f : A -> res B) : res B :=
  match x with Ok a => f a | UB k => UB k end.

Notation "'let*' x := e1 'in' e2" := (bind e1 (fun x => e2))
  (at level 200, x pattern, e1 at level 200, e2 at level 200, right associativity).

Definition assert_ (b : bool) : res unit := if b then Ok tt else UB AssertFailed.

(** ** Arrays *)

(** [a[i]] for reading. *)
Definition aget {A} (l : list A) (i : nat) : res A :=
  match nth_error l i with Some a => Ok a | None => UB OutOfBounds end.

(** Functional update at index [i]; identity when out of range. *)
Fixpoint upd {A} (l : list A) (i : nat) (a : A) : list A :=
  match l, i with
  | [], _ => []
  | _ :: t, O => a :: t
  | h :: t, S i' => h :: upd t i' a
  end.

(** [a[i] = v]. *)
Definition aset {A} (l : list A) (i : nat) (a : A) : res (list A) :=
  if (i <? length l)%nat then Ok (upd l i a) else UB OutOfBounds.

(** ** C integers (RP2040: 32-bit int/long/size_t, two's complement) *)

Definition u8 (z : Z) : Z := z mod 256.
Definition u16 (z : Z) : Z := z mod 65536.
Definition u32 (z : Z) : Z := z mod 4294967296.
Definition u64 (z : Z) : Z := z mod 18446744073709551616.

(** Conversion to a signed 16 / 32 / 64 bit type (modular: GCC's documented
    implementation-defined behaviour). *)
Definition s16 (z : Z) : Z := (z + 32768) mod 65536 - 32768.
Definition s32 (z : Z) : Z := (z + 2147483648) mod 4294967296 - 2147483648.
Definition s64 (z : Z) : Z :=
  (z + 9223372036854775808) mod 18446744073709551616 - 9223372036854775808.

(** Result of signed 32-bit arithmetic: out of range is UB, not wrap-around. *)
Definition in_i32 (z : Z) : bool := (-2147483648 <=? z) && (z <=? 2147483647).
Definition chk32 (z : Z) : res Z := if in_i32 z then Ok z else UB SignedOverflow.

(** [x >> n] on signed values is an arithmetic shift (GCC): floor division. *)
Definition asr (z : Z) (n : Z) : Z := Z.shiftr z n.

(** ** Platform parameters
    The same sources are compiled for the RP2040 (arm-none-eabi-gcc, no
    -fsigned-char in pico/CMakeLists.txt:30-39 or pico/src/CMakeLists.txt:22)
    and for an x86-64 host (pico/tests/CMakeLists.txt). *)
Record platform : Set := {
  char_signed : bool;      (* is plain [char] signed?       *)
  long_max    : Z;         (* LONG_MAX                      *)
}.
(** ARM EABI: plain char is unsigned, long is 32 bits. *)
Definition pico : platform := {| char_signed := false; long_max := 2147483647 |}.
(** x86-64 Linux: plain char is signed, long is 64 bits. *)
Definition host64 : platform := {| char_signed := true; long_max := 9223372036854775807 |}.

(** ** Basic lemmas *)

Lemma bind_ok {A B} (x : res A) (f : A -> res B) b :
  bind x f = Ok b <-> exists a, x = Ok a /\ f a = Ok b.
Proof.
  destruct x as [a|k]; cbn; split; intros H.
  - exists a; auto.
  - destruct H as (a' & E & F). inversion E; subst; exact F.
  - discriminate.
  - destruct H as (a' & E & F). discriminate.
Qed.

Lemma upd_length {A} (l : list A) i a : length (upd l i a) = length l.
Proof. revert i; induction l as [|h t IH]; intros [|i]; cbn; auto. Qed.

Lemma nth_error_upd_eq {A} (l : list A) i a :
  (i < length l)%nat -> nth_error (upd l i a) i = Some a.
Proof. revert i; induction l as [|h t IH]; intros [|i] H; cbn in *; try lia; auto. apply IH; lia. Qed.

Lemma nth_error_upd_neq {A} (l : list A) i j a :
  i <> j -> nth_error (upd l i a) j = nth_error l j.
Proof.
  revert i j; induction l as [|h t IH]; intros [|i] [|j] H; cbn; auto; try congruence.
Qed.

Lemma aget_ok {A} (l : list A) i a : aget l i = Ok a <-> nth_error l i = Some a.
Proof.
  unfold aget; destruct (nth_error l i); split; intros H; inversion H; subst; auto.
Qed.

Lemma aget_lt {A} (l : list A) i : (i < length l)%nat -> exists a, aget l i = Ok a.
Proof.
  intros H. unfold aget. destruct (nth_error l i) eqn:E; eauto.
  apply nth_error_None in E; lia.
Qed.

Lemma aset_ok {A} (l : list A) i a :
  (i < length l)%nat -> aset l i a = Ok (upd l i a).
Proof. intros H. unfold aset. destruct (Nat.ltb_spec i (length l)); [reflexivity|lia]. Qed.

Lemma aset_oob {A} (l : list A) i a :
  (length l <= i)%nat -> aset l i a = UB OutOfBounds.
Proof. intros H. unfold aset. destruct (Nat.ltb_spec i (length l)); [lia|reflexivity]. Qed.

Lemma chk32_ok z : -2147483648 <= z <= 2147483647 -> chk32 z = Ok z.
Proof.
  intros H. unfold chk32, in_i32.
  destruct (Z.leb_spec (-2147483648) z); destruct (Z.leb_spec z 2147483647); cbn; auto; lia.
Qed.

Lemma chk32_inv z v : chk32 z = Ok v -> v = z /\ -2147483648 <= z <= 2147483647.
Proof.
  unfold chk32, in_i32. destruct (Z.leb_spec (-2147483648) z), (Z.leb_spec z 2147483647); cbn;
  intros E; inversion E; subst; auto; lia.
Qed.

Lemma asr_div z n : 0 <= n -> asr z n = z / 2 ^ n.
Proof. intros H. unfold asr. apply Z.shiftr_div_pow2; exact H. Qed.

Lemma s16_id z : -32768 <= z <= 32767 -> s16 z = z.
Proof. intros H. unfold s16. rewrite Z.mod_small; lia. Qed.
Lemma s32_id z : -2147483648 <= z <= 2147483647 -> s32 z = z.
Proof. intros H. unfold s32. rewrite Z.mod_small; lia. Qed.
Lemma u8_id z : 0 <= z < 256 -> u8 z = z.
Proof. intros H. unfold u8. apply Z.mod_small; lia. Qed.
Lemma u32_id z : 0 <= z < 4294967296 -> u32 z = z.
Proof. intros H. unfold u32. apply Z.mod_small; lia. Qed.
Lemma s16_range z : -32768 <= s16 z <= 32767.
Proof. unfold s16. pose proof (Z.mod_pos_bound (z + 32768) 65536 eq_refl). lia. Qed.

(** ** Running a step function along a list of inputs *)

(** Feed the inputs [l] one after the other; collect the outputs. *)
Fixpoint mrun {S I O : Type} (f : S -> I -> res (S * O)) (s : S) (l : list I) : res (S * list O) :=
  match l with
  | [] => Ok (s, [])
  | i :: t =>
      let* (s1, o) := f s i in
      let* (s2, os) := mrun f s1 t in
      Ok (s2, o :: os)
  end.

(** The same without outputs. *)
Fixpoint mfold {S I : Type} (f : S -> I -> res S) (s : S) (l : list I) : res S :=
  match l with
  | [] => Ok s
  | i :: t => let* s1 := f s i in mfold f s1 t
  end.

Lemma mrun_app {S I O} (f : S -> I -> res (S * O)) s l1 l2 :
  mrun f s (l1 ++ l2) =
  (let* (s1, o1) := mrun f s l1 in let* (s2, o2) := mrun f s1 l2 in Ok (s2, o1 ++ o2)).
Proof.
  revert s; induction l1 as [|i t IH]; intros s; cbn.
  - destruct (mrun f s l2) as [[s2 o2]|k]; reflexivity.
  - destruct (f s i) as [[s1 o]|k]; cbn; [|reflexivity].
    rewrite IH. destruct (mrun f s1 t) as [[s2 os]|k]; cbn; [|reflexivity].
    destruct (mrun f s2 l2) as [[s3 os3]|k]; reflexivity.
Qed.

Lemma mrun_length {S I O} (f : S -> I -> res (S * O)) s l s' os :
  mrun f s l = Ok (s', os) -> length os = length l.
Proof.
  revert s s' os; induction l as [|i t IH]; cbn; intros s s' os H.
  - inversion H; reflexivity.
  - destruct (f s i) as [[s1 o]|k]; cbn in H; [|discriminate].
    destruct (mrun f s1 t) as [[s2 os2]|k] eqn:E; cbn in H; [|discriminate].
    inversion H; subst; cbn. f_equal. eapply IH; eauto.
Qed.

(** The last [n] items of a list (everything if it is shorter). *)
Definition lastn {A} (n : nat) (l : list A) : list A := skipn (length l - n) l.

Lemma lastn_length {A} n (l : list A) : (n <= length l)%nat -> length (lastn n l) = n.
Proof. intros H. unfold lastn. rewrite skipn_length. lia. Qed.

(** Solve a closed example by computation, one conjunct after the other. *)
Ltac ex_one := vm_compute; first [reflexivity | discriminate | lia | (intros; discriminate)].
Ltac ex_conj := lazymatch goal with |- _ /\ _ => split; [ex_one | ex_conj] | |- _ => ex_one end.
Ltac ex_solve := repeat match goal with |- ex _ => eexists end; ex_conj.

Lemma skipn_skipn {A} n m (l : list A) : skipn n (skipn m l) = skipn (n + m) l.
Proof.
  revert m; induction l as [|a t IH]; intros m; [rewrite !skipn_nil; auto|].
  destruct m; cbn [skipn]; [rewrite Nat.add_0_r; auto|]. rewrite IH, Nat.add_succ_r. reflexivity.
Qed.
