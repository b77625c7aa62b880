(** C78: the 3ds Max map and material accessors, and the layers of a composite map. *)
From Coq Require Import Strings.Ascii Strings.String.
From Verif Require Import Base MaxEx_Model.
Local Open Scope string_scope.
Local Open Scope Z_scope.
Local Open Scope list_scope.

Definition ids_ok (c : class) : bool :=
  forallb (fun f => match param_id c (fst f) with
                    | Some i => forallb (fun g => String.eqb (fst f) (fst g) || match param_id c (fst g) with Some j => negb (i =? j) | None => false end) (accessors c)
                    | None => false end) (accessors c).
Lemma ids_all : forallb ids_ok classes = true. Proof. vm_compute. reflexivity. Qed.
Lemma ids c f g tf tg : In c classes -> In (f, tf) (accessors c) -> In (g, tg) (accessors c) -> f <> g ->
  exists i j, param_id c f = Some i /\ param_id c g = Some j /\ i <> j.
Proof.
  intros C F G N. pose proof ids_all as A. rewrite forallb_forall in A. specialize (A c C). unfold ids_ok in A. rewrite forallb_forall in A.
  specialize (A _ F). cbn [fst] in A. destruct (param_id c f) as [i|]; [|discriminate]. rewrite forallb_forall in A. specialize (A _ G). cbn [fst] in A.
  destruct (String.eqb_spec f g); [contradiction|]. cbn [orb] in A. destruct (param_id c g) as [j|]; [|discriminate].
  exists i, j. destruct (Z.eqb_spec i j); [discriminate|]. auto.
Qed.
Lemma id1 c f tf : In c classes -> In (f, tf) (accessors c) -> exists i, param_id c f = Some i.
Proof.
  intros C F. pose proof ids_all as A. rewrite forallb_forall in A. specialize (A c C). unfold ids_ok in A. rewrite forallb_forall in A.
  specialize (A _ F). cbn [fst] in A. destruct (param_id c f) as [i|]; [|discriminate]. eauto.
Qed.

(** For every class and every accessor of it: the setter stores a value the getter of the same name gives
    back; every other accessor, and the same accessor of another layer, gives what it gave before *)
Theorem C78_accessors : forall c f t index b v, In c classes -> In (f, t) (accessors c) -> typed t v ->
  exists b', set_acc c f index b v = Some b' /\ get_acc c f index b' = Some v /\
    (forall g tg n, In (g, tg) (accessors c) -> g <> f \/ n <> index -> get_acc c g n b' = get_acc c g n b).
Proof.
  intros c f t index b v C F _. destruct (id1 c f t C F) as [i E]. unfold set_acc, get_acc. rewrite E. cbn [option_map].
  eexists. split; [reflexivity|]. split.
  - unfold GetValue, SetValue. rewrite !Z.eqb_refl. reflexivity.
  - intros g tg n G D. destruct (String.eqb_spec g f) as [->|N].
    + destruct D as [D|D]; [congruence|]. rewrite E. unfold GetValue, SetValue. rewrite Z.eqb_refl. destruct (Z.eqb_spec n index); [congruence|reflexivity].
    + destruct (ids c g f tg t C G F N) as (j & i' & E1 & E2 & N'). rewrite E1. rewrite E in E2. injection E2 as <-.
      unfold GetValue, SetValue. destruct (Z.eqb_spec j i); [congruence|reflexivity].
Qed.
Print Assumptions C78_accessors.

(** The constructors taking maps leave exactly what the accessors of the same names then give *)
Theorem C78_constructors : forall b m1 m2 x,
  (exists b', Mix_new b m1 m2 x = Some b' /\ get_acc Mix_c "Map1" 0 b' = Some (PPtr m1) /\ get_acc Mix_c "Map2" 0 b' = Some (PPtr m2) /\
     get_acc Mix_c "MixAmmount" 0 b' = Some (PFloat x) /\ get_acc Mix_c "Mask" 0 b' = get_acc Mix_c "Mask" 0 b) /\
  (exists b', Mix_new_mask b m1 m2 x = Some b' /\ get_acc Mix_c "Map1" 0 b' = Some (PPtr m1) /\ get_acc Mix_c "Map2" 0 b' = Some (PPtr m2) /\
     get_acc Mix_c "Mask" 0 b' = Some (PPtr x) /\ get_acc Mix_c "MixAmmount" 0 b' = get_acc Mix_c "MixAmmount" 0 b) /\
  (exists b', NormalBump_new b m1 = Some b' /\ get_acc NormalBump_c "Normal" 0 b' = Some (PPtr m1) /\ get_acc NormalBump_c "Bump" 0 b' = get_acc NormalBump_c "Bump" 0 b) /\
  (exists b', RGBMultiply_new b m1 m2 = Some b' /\ get_acc RGBMultiply_c "Map1" 0 b' = Some (PPtr m1) /\ get_acc RGBMultiply_c "Map2" 0 b' = Some (PPtr m2)).
Proof. intros b m1 m2 x. repeat split; (eexists; split; [reflexivity|]; repeat split; reflexivity). Qed.
Print Assumptions C78_constructors.

(** The numbers of PhysicalMaterial::Maps_e: map number k is parameter 100 + k of the material and its
    switch is parameter 150 + k, by the names the enumeration gives them (three are misspelt) *)
Definition map_name (m : string) : string :=
  if String.eqb m "SSSScaleMap" then "sSSSScaleMap" else if String.eqb m "EmissionColorMap" then "eEmisionColorMap" else ("e" ++ m)%string.
Definition switch_name (m : string) : string :=
  if String.eqb m "ScatteringMap" then "eScatteringMActiveap" else if String.eqb m "EmissionColorMap" then "eEmisionColorMapActive" else ("e" ++ m ++ "Active")%string.
Theorem C78_maps : forall m k, In (m, k) (enum_values 0 Maps_e) ->
  In (map_name m, 100 + k) (enum_values 0 (params_e PhysicalMaterial_c)) /\
  In (switch_name m, 150 + k) (enum_values 0 (params_e PhysicalMaterial_c)).
Proof.
  intros m k H.
  assert (A : forallb (fun c => existsb (fun d => String.eqb (fst d) (map_name (fst c)) && (snd d =? 100 + snd c)) (enum_values 0 (params_e PhysicalMaterial_c)) &&
                                existsb (fun d => String.eqb (fst d) (switch_name (fst c)) && (snd d =? 150 + snd c)) (enum_values 0 (params_e PhysicalMaterial_c)))
                      (enum_values 0 Maps_e) = true) by (vm_compute; reflexivity).
  rewrite forallb_forall in A. specialize (A _ H). cbn [fst snd] in A. apply Bool.andb_true_iff in A as [A1 A2].
  apply existsb_exists in A1 as ([n1 v1] & I1 & E1). apply existsb_exists in A2 as ([n2 v2] & I2 & E2). cbn [fst snd] in E1, E2.
  apply Bool.andb_true_iff in E1 as [E1 F1]. apply Bool.andb_true_iff in E2 as [E2 F2]. apply String.eqb_eq in E1, E2. apply Z.eqb_eq in F1, F2. subst. auto.
Qed.
Print Assumptions C78_maps.

Section L.
  Context {layer : Type} (fresh : layer) (odd : list layer -> Z -> list layer).
  Lemma add_n_app n : forall l, add_n fresh n l = (l ++ repeat fresh n)%list.
  Proof. induction n as [|n IH]; intros l; cbn [add_n repeat]; [rewrite app_nil_r; reflexivity|]. rewrite IH. cbn [AddLayer fst]. rewrite <- app_assoc. reflexivity. Qed.
  Lemma delete_ok l i : 0 <= i < Z.of_nat (length l) -> (2 <= length l)%nat ->
    DeleteLayer odd l i = (firstn (Z.to_nat i) l ++ skipn (S (Z.to_nat i)) l)%list.
  Proof.
    intros H L. unfold DeleteLayer, NumLayers, host_delete. destruct (Z.eqb_spec (Z.of_nat (length l)) 1); [lia|]. rewrite Bool.andb_false_r.
    unfold Z.geb. destruct (Z.compare_spec i (Z.of_nat (length l))); try lia. 
    destruct (Z.leb_spec 0 i); [|lia]. destruct (Z.ltb_spec i (Z.of_nat (length l))); [|lia]. cbn [andb]. rewrite Nat.add_1_r. reflexivity.
  Qed.
  Lemma del_n_firstn n : forall t l, 1 <= t -> (n < length l)%nat ->
    del_n odd n t (Z.of_nat (length l) + t - 1) l = firstn (length l - n) l.
  Proof.
    induction n as [|n IH]; intros t l T L; cbn [del_n]; [rewrite Nat.sub_0_r, firstn_all; reflexivity|].
    replace (Z.of_nat (length l) + t - 1 - t) with (Z.of_nat (length l - 1)) by lia.
    rewrite delete_ok by lia. rewrite Nat2Z.id. rewrite skipn_all2 by lia. rewrite app_nil_r.
    set (l' := firstn (length l - 1) l). assert (L' : length l' = (length l - 1)%nat) by (unfold l'; rewrite firstn_length; lia).
    replace (Z.of_nat (length l) + t - 1) with (Z.of_nat (length l') + (t + 1) - 1) by lia. rewrite IH by lia.
    unfold l'. rewrite firstn_firstn, firstn_length. f_equal. lia.
  Qed.

End L.
(** Resizing to n layers, n at least 1, leaves exactly n: the first ones as they were, then new ones;
    below 1 nothing happens *)
Theorem C78_resize : forall (layer : Type) (fresh : layer) odd l n,
  Resize fresh odd l n =
    if n <? 1 then l else (firstn (Z.to_nat n) l ++ repeat fresh (Z.to_nat n - length l))%list.
Proof.
  intros layer fresh odd l n. unfold Resize. destruct (Z.ltb_spec n 1) as [H|H]; [reflexivity|]. unfold NumLayers.
  destruct (Z.eqb_spec (n - Z.of_nat (length l)) 0) as [E|E].
  - rewrite firstn_all2 by lia. replace (Z.to_nat n - length l)%nat with O by lia. cbn [repeat]. rewrite app_nil_r. reflexivity.
  - destruct (Z.ltb_spec 0 (n - Z.of_nat (length l))) as [P|P].
    + rewrite add_n_app, firstn_all2 by lia. do 2 f_equal. lia.
    + replace (Z.of_nat (length l)) with (Z.of_nat (length l) + 1 - 1) at 2 by lia. rewrite del_n_firstn by lia.
      replace (Z.to_nat n - length l)%nat with O by lia. cbn [repeat]. rewrite app_nil_r. f_equal. lia.
Qed.
Print Assumptions C78_resize.
Theorem C78_resize_count : forall (layer : Type) (fresh : layer) odd l n, 1 <= n -> NumLayers (Resize fresh odd l n) = n.
Proof.
  intros. rewrite C78_resize. destruct (Z.ltb_spec n 1); [lia|]. unfold NumLayers. rewrite app_length, firstn_length, repeat_length. lia.
Qed.
Print Assumptions C78_resize_count.
(** Adding a layer appends it and returns its index; deleting a layer that exists removes that one and
    keeps the order, except that the only layer is never deleted and an index past the end does nothing *)
Theorem C78_delete : forall (layer : Type) (fresh : layer) odd l i,
  fst (AddLayer fresh l) = (l ++ [fresh])%list /\ nth_error (fst (AddLayer fresh l)) (Z.to_nat (snd (AddLayer fresh l))) = Some fresh /\
  (forall x y r, l = (x ++ y :: r)%list -> (2 <= length l)%nat -> DeleteLayer odd l (Z.of_nat (length x)) = (x ++ r)%list) /\
  (length l = 1%nat -> DeleteLayer odd l i = l) /\ (NumLayers l <= i -> DeleteLayer odd l i = l).
Proof.
  intros layer fresh odd l i. split; [reflexivity|]. split; [|split; [|split]].
  - cbn [AddLayer fst snd]. unfold NumLayers. rewrite app_length. cbn [length].
    replace (Z.to_nat (Z.of_nat (length l + 1) - 1)) with (length l) by lia. rewrite nth_error_app2 by lia. rewrite Nat.sub_diag. reflexivity.
  - intros x y r -> L. rewrite delete_ok by (rewrite app_length in *; cbn [length] in *; lia). rewrite Nat2Z.id, firstn_app, Nat.sub_diag, firstn_O, app_nil_r, firstn_all.
    f_equal. rewrite skipn_app, skipn_all2 by lia. replace (S (length x) - length x)%nat with 1%nat by lia. reflexivity.
  - intros E. unfold DeleteLayer, NumLayers. rewrite E. change (Z.of_nat 1 =? 1) with true. rewrite Bool.andb_true_r.
    destruct (Z.ltb_spec i 1); [reflexivity|]. unfold Z.geb. destruct (Z.compare_spec i (Z.of_nat 1)); reflexivity || lia.
  - intros E. unfold DeleteLayer, NumLayers in *. destruct (_ && _)%bool; [reflexivity|]. unfold Z.geb. destruct (Z.compare_spec i (Z.of_nat (length l))); reflexivity || lia.
Qed.
Print Assumptions C78_delete.
(** A negative index is not refused: with two or more layers it reaches the host as it is *)
Theorem C78_negative_refuted : forall (layer : Type) (odd : list layer -> Z -> list layer) l i, i < 0 -> (2 <= length l)%nat ->
  DeleteLayer odd l i = odd l i.
Proof.
  intros layer odd l i H L. unfold DeleteLayer, NumLayers, host_delete. destruct (Z.eqb_spec (Z.of_nat (length l)) 1); [lia|]. rewrite Bool.andb_false_r.
  unfold Z.geb. destruct (Z.compare_spec i (Z.of_nat (length l))); try lia. destruct (Z.leb_spec 0 i); [lia|]. reflexivity.
Qed.
Print Assumptions C78_negative_refuted.

Example ex_resize : Resize 9 (fun l _ => l) [1; 2; 3; 4] 2 = [1; 2] /\ Resize 9 (fun l _ => l) [1; 2] 4 = [1; 2; 9; 9].
Proof. split; reflexivity. Qed.
Example ex_ids : param_id PhysicalMaterial_c "IOR" = Some 33 /\ param_id PhysicalMaterial_c "CutoutMapActive" = Some 183 /\ param_id Layer_c "Mask" = Some 10 /\
  In (("CutoutMap", 33)%string) (enum_values 0 Maps_e) /\ In Layer_c classes /\ In ("Opacity"%string, TFloat) (accessors Layer_c).
Proof. repeat split; try reflexivity; vm_compute; tauto. Qed.
