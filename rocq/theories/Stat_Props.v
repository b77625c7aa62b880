(** C75: kinds of files. *)
From Coq Require Import Strings.String.
From Verif Require Import Base StringView_Model StringView_Proof Stat_Model Stat_Spec.

Lemma land_high a p m : 0 <= p < 4096 -> Z.land (a * 4096 + p) (m * 4096) = Z.land a m * 4096.
Proof.
  intros P. change 4096 with (2 ^ 12). rewrite <- !Z.shiftl_mul_pow2 by lia. apply Z.bits_inj'. intros n Hn.
  rewrite Z.land_spec, !Z.shiftl_spec by lia. rewrite Z.land_spec. destruct (Z_lt_dec n 12) as [L|L].
  - rewrite !(Z.testbit_neg_r _ (n - 12)) by lia. rewrite andb_false_r. reflexivity.
  - f_equal. replace n with ((n - 12) + 12) at 1 by lia. rewrite <- Z.shiftr_spec by lia. f_equal.
    rewrite Z.shiftr_div_pow2, Z.shiftl_mul_pow2 by lia. change (2 ^ 12) with 4096. lia.
Qed.
Lemma type_of_mode k p : 0 <= p < 4096 -> FileType_ix (Some (mode k p)) =
  match k with Dir | Block | Socket => Directory | Regular | Link => File | Char | Fifo => Invalid end.
Proof.
  intros P. unfold FileType_ix, mode, S_IFDIR, S_IFREG. change 0x4000 with (4 * 4096). change 0x8000 with (8 * 4096).
  rewrite !land_high by exact P. destruct k; reflexivity.
Qed.

(** Directories, regular files, character devices and pipes are told apart whatever their
    permissions, and Error means that there is nothing (accessible) at the path. *)
Theorem C75_file_type : (forall p, 0 <= p < 4096 ->
    FileType_ix (Some (mode Dir p)) = Directory /\ FileType_ix (Some (mode Regular p)) = File /\
    FileType_ix (Some (mode Char p)) = Invalid /\ FileType_ix (Some (mode Fifo p)) = Invalid) /\
  (forall s, FileType_ix s = Error <-> s = None).
Proof.
  split; [intros p P; rewrite !type_of_mode by exact P; auto|]. intros [m|]; [|split; reflexivity]. split; [|discriminate].
  unfold FileType_ix. destruct (negb _); [discriminate|]. destruct (negb _); discriminate.
Qed.
Print Assumptions C75_file_type.
(** But every socket and every block device is called a directory. *)
Theorem C75_socket_refuted : forall p, 0 <= p < 4096 ->
  FileType_ix (Some (mode Socket p)) = Directory /\ FileType_ix (Some (mode Block p)) = Directory.
Proof. intros p P. rewrite !type_of_mode by exact P. auto. Qed.
Print Assumptions C75_socket_refuted.
(** On Windows the answer is one of three: an error is Invalid there, a path with the directory bit is a
    Directory, any other a File. *)
Theorem C75_windows : forall flags, 0 <= flags < 2 ^ 32 ->
  (FileType_win flags = Invalid <-> flags = 2 ^ 32 - 1) /\
  (flags <> 2 ^ 32 - 1 -> (FileType_win flags = Directory <-> (flags / 16) mod 2 = 1)) /\ FileType_win flags <> Error.
Proof.
  intros flags F. assert (B : negb (Z.land flags FILE_ATTRIBUTE_DIRECTORY =? 0) = ((flags / 16) mod 2 =? 1)).
  { unfold FILE_ATTRIBUTE_DIRECTORY. change 16 with (2 ^ 4). rewrite <- Z.testbit_spec' by lia.
    destruct (Z.testbit flags 4) eqn:T; cbn [Z.b2z Z.eqb Pos.eqb].
    - destruct (Z.eqb_spec (Z.land flags (2 ^ 4)) 0) as [E|]; [|reflexivity]. exfalso.
      assert (X : Z.testbit (Z.land flags (2 ^ 4)) 4 = true) by (rewrite Z.land_spec, T; reflexivity). rewrite E in X. discriminate.
    - replace (Z.land flags (2 ^ 4)) with 0; [reflexivity|]. symmetry. apply Z.bits_inj'. intros n Hn. rewrite Z.land_spec, Z.bits_0.
      destruct (Z.eq_dec n 4) as [->|N]; [rewrite T; reflexivity|]. rewrite Z.pow2_bits_false by lia. apply andb_false_r. }
  unfold FileType_win, INVALID_FILE_ATTRIBUTES. rewrite B. change (2 ^ 32 - 1) with 0xFFFFFFFF.
  destruct (Z.eqb_spec flags 0xFFFFFFFF) as [->|N]; [split; [split; reflexivity|]; split; [congruence|discriminate]|].
  split; [|split].
  - split; [destruct (_ =? 1); discriminate|contradiction].
  - intros _. destruct (Z.eqb_spec ((flags / 16) mod 2) 1); split; intros H; try reflexivity; try discriminate; try contradiction; try assumption.
  - destruct (_ =? 1); discriminate.
Qed.
Print Assumptions C75_windows.
(** A request for help is one of four words, nothing else. *)
Theorem C75_is_help : forall s, IsHelp s = true <-> In s [ascii "-h"; ascii "-?"; ascii "/?"; ascii "--help"].
Proof.
  intros s. unfold IsHelp. rewrite !orb_true_iff. cbn [In].
  assert (E : forall a b, sv_eq a b = true <-> a = b) by (intros a b; destruct (operators_agree a b) as [H _]; exact H).
  rewrite !E. split; [intros [[[H|H]|H]|H]; subst; auto 6|]. intros [H|[H|[H|[H|[]]]]]; subst; auto.
Qed.
Print Assumptions C75_is_help.
Example C75_example : FileType_ix (Some 0x41ED) = Directory /\ FileType_ix (Some 0x81A4) = File /\ mode Dir 0x1ED = 0x41ED /\
  mode Regular 0x1A4 = 0x81A4 /\ FileType_win 0x20 = File /\ IsHelp (ascii "-help") = false.
Proof. vm_compute. repeat split; reflexivity. Qed.
