(** C01-C03: bit access.  Bits of a byte are the binary digits of its numeric value
    ([Z.testbit (b2z b)]). *)
From Verif Require Import Prelude M_ByteHandler P_ByteHandler.

(** C01 *)
Theorem C01_get_reads_the_bit : forall (b : byte) (pos : nat), pos < 8 ->
  GetBit b pos = Ok (Z.testbit (b2z b) (Z.of_nat pos)).
Proof. exact GetBit_value. Qed.

Theorem C01_set_changes_one_bit : forall (b : byte) (pos : nat) (v : bool), pos < 8 ->
  exists b', SetBit b pos v = Ok b' /\ GetBit b' pos = Ok v /\
    forall q, q < 8 -> q <> pos -> GetBit b' q = GetBit b q.
Proof.
  intros b p v Hp. destruct (SetBit_ok b p v Hp) as (b' & E & H). exists b'.
  split; [exact E|]. split.
  - rewrite GetBit_value, H, Nat.eqb_refl by assumption. reflexivity.
  - intros q Hq Hne. rewrite !GetBit_value, H by assumption.
    apply Nat.eqb_neq in Hne. rewrite Hne. reflexivity.
Qed.

Theorem C01_out_of_range_throws : forall (b : byte) (pos : nat) (v : bool), 8 <= pos ->
  SetBit b pos v = Throw InvalidArgument /\ GetBit b pos = Throw InvalidArgument.
Proof. intros. split; [apply SetBit_throw | apply GetBit_throw]; assumption. Qed.

Example C01_example : SetBit x41 3 true = Ok x49 /\ GetBit x49 3 = Ok true /\ GetBit x41 3 = Ok false.
Proof. repeat split. Qed.

(** C02 *)
Theorem C02_higher : forall b : byte,
  (b2z b = 0%Z -> GetHigherBitPos b = Some 0%Z) /\
  (b2z b <> 0%Z -> exists k, GetHigherBitPos b = Some k /\ (0 <= k < 8)%Z /\
     Z.testbit (b2z b) k = true /\ forall q, (k < q)%Z -> Z.testbit (b2z b) q = false).
Proof. exact higher_spec. Qed.

Theorem C02_lower : forall b : byte,
  (b2z b = 0%Z -> GetLowerBitPos b = Some 255%Z) /\
  (b2z b <> 0%Z -> exists k, GetLowerBitPos b = Some k /\ (0 <= k < 8)%Z /\
     Z.testbit (b2z b) k = true /\ forall q, (0 <= q < k)%Z -> Z.testbit (b2z b) q = false).
Proof. exact lower_spec. Qed.

Theorem C02_byte_count : forall n : Z, (0 <= n < 2 ^ 64)%Z ->
  exists k, CalcRealByteCnt n = Some k /\ (1 <= k <= 8)%Z /\ (n < 256 ^ k)%Z /\
            forall k', (1 <= k')%Z -> (n < 256 ^ k')%Z -> (k <= k')%Z.
Proof. exact CalcRealByteCnt_spec. Qed.

Example C02_example : GetHigherBitPos x50 = Some 6%Z /\ GetLowerBitPos x50 = Some 4%Z /\
  CalcRealByteCnt 65536 = Some 3%Z /\ CalcRealByteCnt 65535 = Some 2%Z.
Proof. repeat split. Qed.

(** C03: [Some a] is a non-null pointer to an array of exactly [length a] bytes. *)
Theorem C03_array_low_positions_are_ub : forall (a : list byte) (pos : Z) (v : bool),
  (8 <= Z.of_nat (length a))%Z -> (8 * Z.of_nat (length a) < 2 ^ 64)%Z -> (0 <= pos <= 8)%Z ->
  (exists u, SetBitArr (Some a) (Z.of_nat (length a)) pos v = UB u) /\
  (exists u, GetBitArr (Some a) (Z.of_nat (length a)) pos = UB u).
Proof.
  intros. split; [eapply SetBitArr_low | eapply GetBitArr_low]; (reflexivity || eassumption).
Qed.

Theorem C03_array_other_positions_do_nothing : forall (a : list byte) (pos : Z) (v : bool),
  (8 <= Z.of_nat (length a))%Z -> (8 * Z.of_nat (length a) < 2 ^ 64)%Z ->
  (8 < pos < 8 * Z.of_nat (length a))%Z ->
  SetBitArr (Some a) (Z.of_nat (length a)) pos v = Ok a /\
  GetBitArr (Some a) (Z.of_nat (length a)) pos = Ok false.
Proof.
  intros. split; [eapply SetBitArr_high | eapply GetBitArr_high]; (reflexivity || eassumption).
Qed.

(** Null pointers, arrays shorter than a pointer and positions past the array are refused, nothing else. *)
Theorem C03_array_arguments : forall (arr : option (list byte)) (n pos : Z) (v : bool),
  (0 <= n)%Z -> (8 * n < 2 ^ 64)%Z -> (0 <= pos)%Z ->
  (arr = None \/ (n < 8)%Z \/ (8 * n <= pos)%Z <-> SetBitArr arr n pos v = Throw InvalidArgument) /\
  (arr = None \/ (n < 8)%Z \/ (8 * n <= pos)%Z <-> GetBitArr arr n pos = Throw InvalidArgument).
Proof. exact array_arguments. Qed.

(** The documented contract (after SetBit(arr, n, pos, true), GetBit(arr, n, pos) is true)
    fails for every in-range position of every array. *)
Theorem C03_documented_contract_refuted : forall (a : list byte) (pos : Z),
  (8 <= Z.of_nat (length a))%Z -> (8 * Z.of_nat (length a) < 2 ^ 64)%Z ->
  (0 <= pos < 8 * Z.of_nat (length a))%Z ->
  ~ exists a', SetBitArr (Some a) (Z.of_nat (length a)) pos true = Ok a' /\
               GetBitArr (Some a') (Z.of_nat (length a')) pos = Ok true.
Proof.
  intros a pos H8 Hn Hp (a' & E1 & E2).
  destruct (Z_le_dec pos 8) as [L|L].
  - destruct (SetBitArr_low a _ pos true eq_refl H8 Hn ltac:(lia)) as (u & E). congruence.
  - rewrite (SetBitArr_high a _ pos true eq_refl H8 Hn) in E1 by lia.
    injection E1 as <-. rewrite (GetBitArr_high a _ pos eq_refl H8 Hn) in E2 by lia. discriminate.
Qed.

Example C03_example :
  SetBitArr (Some (repeat xaa 8)) 8 3 true = UB OobIndex /\
  SetBitArr (Some (repeat xaa 8)) 8 0 true = UB DivByZero /\
  SetBitArr (Some (repeat xaa 8)) 8 20 true = Ok (repeat xaa 8) /\
  SetBitArr (Some (repeat xaa 7)) 7 20 true = Throw InvalidArgument.
Proof. repeat split. Qed.

Print Assumptions C01_get_reads_the_bit.
Print Assumptions C01_set_changes_one_bit.
Print Assumptions C01_out_of_range_throws.
Print Assumptions C02_higher.
Print Assumptions C02_lower.
Print Assumptions C02_byte_count.
Print Assumptions C03_array_low_positions_are_ub.
Print Assumptions C03_array_other_positions_do_nothing.
Print Assumptions C03_documented_contract_refuted.
Print Assumptions C03_array_arguments.
