(** C33: the ZIP virtual file system.
    [Throws]: 1 encrypted, 2 compressed, 3 nameless, 4 unknown block, 5 unknown file. *)
From Verif Require Import Base Supercore_Model Stream_Model Stream_Spec Stream_Proof Stream_Nav_Proof
  Zip_Model Zip_Spec Zip_Proof.

(** a reader just opened on a file or string with these bytes *)
Definition opened (bytes : list Z) (is_file : bool) : nav :=
  mkNav (mkStream bytes 0 false false is_file) 0 0 false.

(** what a session of [Get] calls delivers; a call that throws changes nothing.  Calls from
    several threads are serialised by the mutex at zip_vfs.hpp:48, so a session is any order
    of all of them. *)
Fixpoint session (names : list (list Z)) (vfs : vmap * nav) : list (outcome (list Z)) :=
  match names with
  | [] => []
  | n :: t =>
    match Get n vfs with
    | Ok (b, r) => Ok b :: session t (fst vfs, r)
    | Throws e => Throws e :: session t vfs
    | Undefined => [Undefined]
    | OutOfFuel => [OutOfFuel]
    end
  end.

(** Every archive of stored files, in any order and with any of the other blocks between
    them, is accepted, and every session of reads delivers for each name the bytes stored
    first under it, or throws for a name not stored. *)
Theorem C33_contents : forall rs is_file fuel, Forall wf rs -> len (archive rs) < 2 ^ 63 ->
  (length rs < fuel)%nat ->
  exists vfs, ZIPVFS fuel (opened (archive rs) is_file) = Ok vfs /\
    forall names, session names vfs =
      map (fun n => match stored_as n rs with Some c => Ok c | None => Throws 5 end) names.
Proof.
  intros rs fl fuel W L Hf.
  destruct (vfs_ok (archive rs) fl L rs fuel 0 eq_refl W Hf) as (m & sp & E & Hd).
  exists (m, here (archive rs) fl (length (archive rs)) sp). split; [exact E|].
  assert (G : forall names p, (p <= length (archive rs))%nat ->
    session names (m, here (archive rs) fl p sp) =
      map (fun n => match stored_as n rs with Some c => Ok c | None => Throws 5 end) names).
  { induction names as [|n names IH]; intros p Hp; [reflexivity|]. cbn [session map].
    pose proof (Get_ok (archive rs) fl L rs m p sp n Hd Hp) as G.
    destruct (stored_as n rs) as [c|].
    - destruct G as (q & Hq & ->). cbn [fst]. rewrite IH by exact Hq. reflexivity.
    - rewrite G. rewrite IH by exact Hp. reflexivity. }
  intros names. apply G. lia.
Qed.
Print Assumptions C33_contents.

(** The names listed are exactly the stored ones, each once. *)
Lemma emplace_keys k v m : map fst (emplace k v m) = if in_dec (list_eq_dec Z.eq_dec) k (map fst m) then map fst m else map fst m ++ [k].
Proof.
  unfold emplace.
  assert (H : find_key k m = None <-> ~ In k (map fst m)).
  { clear. induction m as [|[k' v'] m IH]; cbn; [tauto|].
    destruct (list_eq_dec Z.eq_dec k k') as [->|N]; [split; [discriminate|tauto]|].
    rewrite IH. split; [intros H [E|E]; [congruence|tauto]|tauto]. }
  destruct (in_dec (list_eq_dec Z.eq_dec) k (map fst m)) as [I|I].
  - destruct (find_key k m); [reflexivity|]. exfalso. exact (proj1 H eq_refl I).
  - destruct (find_key k m); [|rewrite map_app; reflexivity]. apply H in I. discriminate.
Qed.

Lemma ReadEntry_nodup m r m' r' : NoDup (map fst m) -> ReadEntry m r = Ok (m', r') -> NoDup (map fst m').
Proof.
  intros N. unfold ReadEntry. destruct (Push r) as [? r1]. destruct (read_header 4 r1) as [[b r2]| | |]; try discriminate.
  cbv zeta.
  assert (K : forall k v, NoDup (map fst (emplace k v m))).
  { intros. rewrite emplace_keys. destruct (in_dec _ k (map fst m)) as [|I]; [exact N|].
    rewrite <- (rev_involutive (map fst m ++ [k])). apply NoDup_rev. rewrite rev_app_distr. cbn.
    constructor; [rewrite <- in_rev; exact I|apply NoDup_rev; exact N]. }
  destruct (le_value b =? ID_Local).
  { destruct (read_header 30 (Pop r2)) as [[h r4]| | |]; try discriminate.
    destruct (field 18 4 h =? 0). { intros E. apply (f_equal (fun o => match o with Ok (x, _) => x | _ => [] end)) in E. subst. exact N. }
    destruct (Z.odd (field 6 2 h)); [discriminate|]. destruct (negb (field 8 2 h =? 0)); [discriminate|].
    destruct (field 26 2 h =? 0); [discriminate|].
    destruct (ReadBuffer _ _ r4) as [path r5]. destruct (Tell (skip_int (field 28 2 h) r5)) as [p r7].
    intros E. apply (f_equal (fun o => match o with Ok (x, _) => x | _ => [] end)) in E. subst. apply K. }
  repeat match goal with |- (if ?c then _ else _) = _ -> _ => destruct c end; try discriminate;
  match goal with |- context [read_header ?n ?r] => destruct (read_header n r) as [[h r4]| | |]; try discriminate end;
  intros E; apply (f_equal (fun o => match o with Ok (x, _) => x | _ => [] end)) in E; subst; exact N.
Qed.

Lemma loop_nodup fuel : forall sz m r m' r', NoDup (map fst m) -> read_loop fuel sz m r = Ok (m', r') -> NoDup (map fst m').
Proof.
  induction fuel as [|f IH]; intros sz m r m' r' N E; [discriminate|]. cbn [read_loop] in E.
  destruct (Tell r) as [p r1]. destruct (p <? sz).
  - destruct (ReadEntry m r1) as [[m1 r2]| | |] eqn:X; try discriminate.
    eapply IH; [|exact E]. eapply ReadEntry_nodup; eassumption.
  - apply (f_equal (fun o => match o with Ok (x, _) => x | _ => [] end)) in E. subst. exact N.
Qed.

Theorem C33_listing : forall rs is_file fuel, Forall wf rs -> len (archive rs) < 2 ^ 63 ->
  (length rs < fuel)%nat ->
  exists m r, ZIPVFS fuel (opened (archive rs) is_file) = Ok (m, r) /\ NoDup (map fst m) /\
    forall n, In n (map fst m) <-> stored_as n rs <> None.
Proof.
  intros rs fl fuel W L Hf.
  destruct (vfs_ok (archive rs) fl L rs fuel 0 eq_refl W Hf) as (m & sp & E & Hd).
  exists m, (here (archive rs) fl (length (archive rs)) sp). split; [exact E|]. split.
  - unfold ZIPVFS in E. destruct (GetSize _) as [sz r1]. eapply loop_nodup; [|exact E]. constructor.
  - intros n. specialize (Hd n).
    assert (H : In n (map fst m) <-> find_key n m <> None).
    { clear. induction m as [|[k' v'] m IH]; cbn; [tauto|].
      destruct (list_eq_dec Z.eq_dec n k') as [->|N]; [split; [discriminate|tauto]|].
      rewrite <- IH. split; [intros [E|E]; [congruence|tauto]|tauto]. }
    rewrite H. destruct (stored_as n rs).
    + destruct Hd as (_ & q & -> & _). split; discriminate.
    + rewrite Hd. tauto.
Qed.
Print Assumptions C33_listing.

(** An entry with content that is encrypted, compressed or nameless makes the constructor
    throw, wherever in the archive it stands. *)
Theorem C33_rejects : forall rs v fl me tc cs us nl el tail is_file fuel,
  Forall wf rs -> length tc = 8%nat ->
  0 < cs < 2 ^ 32 -> 0 <= us < 2 ^ 32 -> 0 <= nl < 2 ^ 16 -> 0 <= el < 2 ^ 16 ->
  len (archive rs ++ local_header v fl me tc cs us nl el ++ tail) < 2 ^ 63 -> (length rs < fuel)%nat ->
  let bytes := archive rs ++ local_header v fl me tc cs us nl el ++ tail in
  (Z.odd fl = true -> ZIPVFS fuel (opened bytes is_file) = Throws 1) /\
  (Z.odd fl = false -> me mod 2 ^ 16 <> 0 -> ZIPVFS fuel (opened bytes is_file) = Throws 2) /\
  (Z.odd fl = false -> me mod 2 ^ 16 = 0 -> nl = 0 -> ZIPVFS fuel (opened bytes is_file) = Throws 3).
Proof.
  intros rs v fl me tc cs us nl el tail isf fuel W Ht Hcs Hus Hnl Hel L Hf bytes.
  assert (E : exists m sp, ZIPVFS fuel (opened bytes isf) =
     match ReadEntry m (here bytes isf (length (archive rs)) sp) with
     | Ok (m'', r') => read_loop (fuel - length rs - 1) (Z.of_nat (length bytes)) m'' r'
     | Throws t => Throws t | Undefined => Undefined | OutOfFuel => OutOfFuel
     end).
  { unfold ZIPVFS. change (opened bytes isf) with (here bytes isf 0 0). rewrite GetSize_here by exact L.
    destruct (loop_prefix bytes isf L rs fuel [] 0 0 W Hf) as (m & sp & R).
    - exists (local_header v fl me tc cs us nl el ++ tail). split; [reflexivity|]. discriminate.
    - lia.
    - exists m, sp. exact R. }
  destruct E as (m & sp & E).
  assert (S : skipn (length (archive rs)) bytes = local_header v fl me tc cs us nl el ++ tail) by apply skipn_app_exact.
  rewrite E. erewrite local_read; [|exact L|exact Ht| | | | |exact S]; try lia.
  destruct (Z.eqb_spec cs 0); [lia|].
  repeat split.
  - intros ->. reflexivity.
  - intros -> H. destruct (Z.eqb_spec (me mod 2 ^ 16) 0); [contradiction|reflexivity].
  - intros -> -> ->. reflexivity.
Qed.
Print Assumptions C33_rejects.

(** Anything that does not start with one of the seven known signatures is rejected. *)
Theorem C33_unknown_block : forall rs b1 b2 b3 b4 tail is_file fuel, Forall wf rs ->
  let bytes := archive rs ++ [b1; b2; b3; b4] ++ tail in
  len bytes < 2 ^ 63 -> (length rs < fuel)%nat ->
  (forall b, In b [b1; b2; b3; b4] -> 0 <= b < 256) ->
  ~ In [b1; b2; b3; b4]
     [[0x50; 0x4b; 3; 4]; [0x50; 0x4b; 1; 2]; [0x50; 0x4b; 5; 6]; [0x50; 0x4b; 6; 6]; [0x50; 0x4b; 6; 7];
      [0x50; 0x4b; 5; 5]; [0x50; 0x4b; 6; 8]] ->
  ZIPVFS fuel (opened bytes is_file) = Throws 4.
Proof.
  intros rs b1 b2 b3 b4 tail isf fuel W bytes L Hf Hb Hn.
  unfold ZIPVFS. change (opened bytes isf) with (here bytes isf 0 0). rewrite GetSize_here by exact L.
  destruct (loop_prefix bytes isf L rs fuel [] 0 0 W Hf) as (m & sp & R).
  - exists ([b1; b2; b3; b4] ++ tail). split; [reflexivity|]. discriminate.
  - lia.
  - cbv zeta in R. rewrite R. cbn [Nat.add].
    assert (S : skipn (length (archive rs)) bytes = [b1; b2; b3; b4] ++ tail) by apply skipn_app_exact.
    destruct (entry_id bytes isf L (length (archive rs)) sp m b1 b2 b3 b4 tail S) as (b & Eb & P1 & P2 & P3 & _).
    unfold ReadEntry. rewrite P1, P2. cbv zeta. rewrite Eb.
    assert (D : forall x, (forall b, In b x -> 0 <= b < 256) -> length x = 4%nat -> [b1; b2; b3; b4] <> x ->
                  le_value [b1; b2; b3; b4] <> le_value x).
    { intros x Hx Hl N C. apply N.
      rewrite <- (le_bytes_value [b1; b2; b3; b4]) by (apply Forall_forall; intros; unfold is_byte; apply Hb; assumption).
      rewrite <- (le_bytes_value x) by (apply Forall_forall; intros; unfold is_byte; apply Hx; assumption).
      rewrite C, Hl. reflexivity. }
    Local Ltac sig D Hn l i :=
      let H := fresh in assert (H : le_value [_; _; _; _] <> le_value l) by
        (apply D; [intros b' Hb'; cbn [In] in Hb'; lia|reflexivity|intros C; apply Hn; rewrite C; cbn; tauto]);
      change (le_value l) with i in H; apply Z.eqb_neq in H; rewrite H; clear H.
    sig D Hn [0x50; 0x4b; 3; 4] ID_Local. sig D Hn [0x50; 0x4b; 1; 2] ID_File.
    sig D Hn [0x50; 0x4b; 5; 6] ID_CentralDir. sig D Hn [0x50; 0x4b; 6; 6] ID_CentralDir64.
    sig D Hn [0x50; 0x4b; 6; 7] ID_Locator64. sig D Hn [0x50; 0x4b; 5; 5] ID_Signature.
    sig D Hn [0x50; 0x4b; 6; 8] ID_ExtraData. reflexivity.
Qed.
Print Assumptions C33_unknown_block.

(** Without a bound on the sizes recorded, reading need not finish: 30 bytes that make the
    constructor loop forever. *)
Definition bad_archive : list Z := local_header 20 0 0 (repeat 0 8) 0 (2 ^ 32 - 30) 0 0.

Theorem C33_hang_refuted : forall is_file fuel, ZIPVFS fuel (opened bad_archive is_file) = OutOfFuel.
Proof.
  intros isf fuel. unfold ZIPVFS. change (opened bad_archive isf) with (here bad_archive isf 0 0).
  assert (L : Z.of_nat (length bad_archive) < 2 ^ 63) by (vm_compute; reflexivity).
  rewrite GetSize_here by exact L.
  assert (G : forall sp m, read_loop fuel (Z.of_nat (length bad_archive)) m (here bad_archive isf 0 sp) = OutOfFuel);
    [|apply G].
  induction fuel as [|f IH]; intros sp m; [reflexivity|]. cbn [read_loop].
  rewrite Tell_here; [|exact L|lia]. change (Z.of_nat 0 <? Z.of_nat (length bad_archive)) with true. cbv iota.
  rewrite (local_read bad_archive isf L 0 sp 20 0 0 (repeat 0 8) 0 (2 ^ 32 - 30) 0 0 [] m);
    [|reflexivity|lia|lia|lia|lia|symmetry; apply app_nil_r].
  cbn [Z.eqb].
  replace (skip_int (u32 (0 + 0 + (2 ^ 32 - 30))) (here bad_archive isf (0 + 30) (Z.of_nat 0))) with (here bad_archive isf 0 0).
  - apply IH.
  - destruct isf; vm_compute; reflexivity.
Qed.
Print Assumptions C33_hang_refuted.

(** The signatures are the FourCCs of the source (ZIP.hpp:88-187). *)
Example signatures :
  map CompileFourCC [[80;75;3;4;0]; [80;75;1;2;0]; [80;75;5;6;0]; [80;75;6;6;0]; [80;75;6;7;0]; [80;75;5;5;0]; [80;75;6;8;0]]
  = map Some [ID_Local; ID_File; ID_CentralDir; ID_CentralDir64; ID_Locator64; ID_Signature; ID_ExtraData].
Proof. reflexivity. Qed.

(** Non-vacuity: two files, one twice, a directory, and the central directory. *)
Definition sample : list record :=
  [Stored 20 0 (repeat 7 8) 3 [97] [1; 2] [10; 11; 12];
   Empty 20 0 0 (repeat 7 8) [100; 47] [];
   Stored 20 8 (repeat 7 8) 1 [98] [] [13];
   Stored 20 0 (repeat 7 8) 2 [97] [] [14; 15];
   CentralFile (repeat 0 24) (repeat 0 12) [97] [] [];
   CentralEnd (repeat 0 16) [104; 105]].
Example sample_wf : Forall wf sample /\ len (archive sample) < 2 ^ 63.
Proof. split; [repeat constructor; cbn; lia|vm_compute; reflexivity]. Qed.
Example sample_run :
  match ZIPVFS 7 (opened (archive sample) true) with
  | Ok v => session [[98]; [97]; [100; 47]; [98]] v = [Ok [13]; Ok [10; 11; 12]; Throws 5; Ok [13]]
  | _ => False
  end.
Proof. vm_compute. reflexivity. Qed.
