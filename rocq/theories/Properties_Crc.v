(** Properties C01, C02, C03 and C41: the checksum. *)
From Verif Require Import Go M_Crc S_Crc P_Crc.

(** C01.  The table built by the library and the routine that uses it compute
    CRC-16/ARC: the value is the one, and the only one, that CRC-16/ARC gives. *)
Theorem C01_checksum_is_crc16_arc :
  make_crc_table = Ok crctable /\
  forall msg, bytes msg ->
    is_crc16 msg (calcCrc 0 msg) /\ forall c, is_crc16 msg c -> c = calcCrc 0 msg.
Proof.
  split; [exact make_crc_table_eq|]. intros msg H. split; [now apply calcCrc_is_crc16|].
  intros c Hc. exact (is_crc16_unique msg c _ Hc (calcCrc_is_crc16 msg H)).
Qed.

(** The standard check value of CRC-16/ARC: "123456789" has CRC 0xBB3D. *)
Example C01_check_value :
  bytes [49; 50; 51; 52; 53; 54; 55; 56; 57] /\
  calcCrc 0 [49; 50; 51; 52; 53; 54; 55; 56; 57] = 47933 /\
  ~ is_crc16 [49; 50; 51; 52; 53; 54; 55; 56; 57] 47932.
Proof.
  assert (B : bytes [49; 50; 51; 52; 53; 54; 55; 56; 57])
    by (repeat constructor; unfold is_byte; lia).
  split; [exact B|]. split; [vm_compute; reflexivity|].
  intros C. pose proof (is_crc16_unique _ _ _ C (calcCrc_is_crc16 _ B)) as E.
  vm_compute in E. discriminate E.
Qed.

(** C02.  Feeding the pieces one after the other gives the CRC of the whole. *)
Theorem C02_checksum_independent_of_chunking :
  forall (chunks : list (list Z)) (crc : Z),
    fold_left calcCrc chunks crc = calcCrc crc (concat chunks).
Proof. intros. apply calcCrc_concat. Qed.

Example C02_chunks :
  fold_left calcCrc [[1; 2]; []; [3; 4; 5]] 7 = calcCrc 7 [1; 2; 3; 4; 5] /\
  calcCrc 7 [1; 2; 3; 4; 5] <> calcCrc 7 [1; 2; 3; 4].
Proof. vm_compute. split; [reflexivity|discriminate]. Qed.

(** C03.  A burst of at most 16 bits is always seen. *)
Theorem C03_checksum_detects_bursts :
  forall (crc : Z) (a b : list Z), 0 <= crc < 2^16 -> bytes a -> bytes b ->
    burst16 a b -> calcCrc crc a <> calcCrc crc b.
Proof. exact calcCrc_burst. Qed.

(** A 16-bit burst that straddles three bytes. *)
Example C03_a_burst : burst16 [1; 2; 3; 4] [1; 34; 252; 11].
Proof.
  split; [reflexivity|]. split; [discriminate|].
  exists 12%nat. intros k H.
  destruct (Nat.lt_ge_cases k 32) as [L|L].
  - do 32 (destruct k as [|k]; [vm_compute in H; first [congruence | lia]|]). lia.
  - exfalso. apply H. rewrite !nth_overflow; auto.
Qed.

(** C41.  So is any odd number of flipped bits, wherever they are. *)
Theorem C41_checksum_detects_odd_errors :
  forall (crc : Z) (a b : list Z), 0 <= crc < 2^16 -> bytes a -> bytes b ->
    length a = length b -> Nat.odd (distance (msg_bits a) (msg_bits b)) = true ->
    calcCrc crc a <> calcCrc crc b.
Proof. exact calcCrc_odd. Qed.

Example C41_three_errors :
  distance (msg_bits [1; 2; 3; 4; 5]) (msg_bits [0; 2; 3; 0; 21]) = 3%nat.
Proof. reflexivity. Qed.

Print Assumptions C01_checksum_is_crc16_arc.
Print Assumptions C02_checksum_independent_of_chunking.
Print Assumptions C03_checksum_detects_bursts.
Print Assumptions C41_checksum_detects_odd_errors.
