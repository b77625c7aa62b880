(** C57: unpacking sampled vertices, comparing transforms.  C58: calls a class does not implement. *)
From Coq Require Import String Reals Lra.
From Verif Require Import Base Float_Model Simd_Model UniModel_Model.

(** What the documentation of the enum says one component becomes. *)
Definition unpacked {K : scalar} (t : unpack) (x lo hi : K) : K :=
  match t with
  | Add => s_add x lo
  | Mul => s_mul x lo
  | Madd => s_add hi (s_mul x lo)
  | _ => x
  end.

(** C57: in any arithmetic (single precision with one rounding per operation, exact reals): Resample
    changes no count and no order, and every component of every vector becomes what its rule says. *)
Theorem C57_resample : forall (K : scalar) t (box : bbox K) data, 
  length (Resample t box data) = length data /\
  forall i v, nth_error data i = Some v -> exists v', nth_error (Resample t box data) i = Some v' /\
    forall j, (j < 4)%nat -> lane v' j = unpacked t (lane v j) (lane (min box) j) (lane (max box) j).
Proof.
  intros K t box data. split; [destruct t; cbn; rewrite ?map_length; reflexivity|]. intros i v H.
  assert (L : forall f : vec K -> vec K, nth_error (List.map f data) i = Some (f v)) by (intros f; exact (map_nth_error f i data H)).
  destruct t; cbn [Resample]; (eexists; split; [first [exact H|apply L]|]); intros j Hj; do 4 (destruct j as [|j]; [reflexivity|]); lia.
Qed.
Print Assumptions C57_resample.
(** In exact arithmetic unpacking undoes packing: a value stored as (x - max) / min, x / min or x - min
    comes back, for every box without a zero scale. *)
Theorem C57_unpacks : forall t (box : bbox reals) (data : list (vec reals)),
  (forall j, (j < 4)%nat -> (lane (min box) j : R) <> 0%R) ->
  let pack := fun (x lo hi : R) => match t with Add => (x - lo)%R | Mul => (x / lo)%R | Madd => ((x - hi) / lo)%R | _ => x end in
  Resample t box (List.map (fun v : vec reals => V (K:=reals) (pack (X v) (X (min box)) (X (max box))) (pack (Y v) (Y (min box)) (Y (max box)))
                                     (pack (Z_ v) (Z_ (min box)) (Z_ (max box))) (pack (W v) (W (min box)) (W (max box)))) data) = data.
Proof.
  intros t [[a b c d] [a' b' c' d']] data Hz pack. pose proof (Hz 0%nat ltac:(lia)) as H0. pose proof (Hz 1%nat ltac:(lia)) as H1. pose proof (Hz 2%nat ltac:(lia)) as H2. pose proof (Hz 3%nat ltac:(lia)) as H3. cbn in H0, H1, H2, H3.
  rewrite <- (map_id data) at 2. unfold Resample.
  destruct t; rewrite ?map_map; apply map_ext; intros [x y z w]; unfold pack, vadd, vmul, map2; cbn; f_equal; field; assumption.
Qed.
Print Assumptions C57_unpacks.
(** A fresh RTSValue is the identity: translation 0, rotation the unit quaternion, scale 1; two values are
    equal exactly when every component of all three parts is within epsilon, and != is the opposite. *)
Theorem C57_rts : forall (eps : R) (a b : rts reals),
  (rts_eq (eps : reals) a b = true <->
     forall j, (j < 4)%nat -> (Rabs (lane (translation a) j - lane (translation b) j) <= eps)%R /\ (Rabs (lane (rotation a) j - lane (rotation b) j) <= eps)%R /\
                              (Rabs (lane (scale a) j - lane (scale b) j) <= eps)%R) /\
  rts_ne (eps : reals) a b = negb (rts_eq (eps : reals) a b) /\
  (RTSValue (K:=reals) = RTS (V (K:=reals) 0 0 0 0)%R (V (K:=reals) 0 0 0 1)%R (V (K:=reals) 1 1 1 0)%R).
Proof.
  intros eps a b. split; [|split; reflexivity].
  assert (L : forall u v : R, ((if Rle_dec u (v + eps) then true else false) && (if Rle_dec (v - eps) u then true else false))%bool = true <-> (Rabs (u - v) <= eps)%R).
  { intros u v. unfold Rabs. destruct (Rcase_abs (u - v)), (Rle_dec u (v + eps)), (Rle_dec (v - eps) u); cbn; split; intros; try discriminate; try reflexivity; lra. }
  assert (Q : forall x y : vec reals, veq (eps : reals) x y = true <-> forall j, (j < 4)%nat -> (Rabs (lane x j - lane y j) <= eps)%R).
  { intros [x y z w] [x' y' z' w']. unfold veq, Compare, all_lanes. cbn. rewrite !andb_true_iff, <- !andb_true_iff, !andb_true_iff. split.
    - intros H j Hj. destruct j as [|[|[|[|j]]]]; cbn [lane X Y Z_ W]; try lia; apply L; apply andb_true_iff; tauto.
    - intros H. pose proof (proj2 (L _ _) (H 0%nat ltac:(lia))) as H0. pose proof (proj2 (L _ _) (H 1%nat ltac:(lia))) as H1. pose proof (proj2 (L _ _) (H 2%nat ltac:(lia))) as H2. pose proof (proj2 (L _ _) (H 3%nat ltac:(lia))) as H3.
      cbn [lane X Y Z_ W] in *. apply andb_true_iff in H0, H1, H2, H3. tauto. }
  unfold rts_eq. rewrite !andb_true_iff, !Q. split.
  - intros [[H1 H2] H3] j Hj. auto.
  - intros H. split; [split|]; intros j Hj; apply H; exact Hj.
Qed.
Print Assumptions C57_rts.
Example C57_nonvacuous : exists f : f32, f = of_int 7 /\
  Resample (K:=singles) Madd (Box (all4 (K:=singles) (of_int 2)) (all4 (K:=singles) (of_int 1))) [all4 (K:=singles) (of_int 3)] = [all4 (K:=singles) f].
Proof. eexists. split; [reflexivity|vm_compute; reflexivity]. Qed.

(** C58: what a caller needs to write to survive a call the class does not implement.  Every overload,
    whatever type the object reports: the exception is taken by handlers for std::exception and by
    catch-all handlers only; the distinction between logic and runtime errors and the message are lost. *)
Definition default_calls : list object :=
  List.map GetTM_rts [TMTYPE_RTS; TMTYPE_MATRIX] ++ List.map GetTM_matrix [TMTYPE_RTS; TMTYPE_MATRIX] ++
  (let all := [Position; Rotation; Scale; Matrix; PositionRotationScale; SingleFloat] in
   List.map GetValue_rts all ++ List.map GetValue_matrix all ++ List.map GetValue_vector all ++ List.map GetValue_float all).
Theorem C58_handlers_refuted : forall o h, In o default_calls ->
  (takes h o = true <-> h = CatchAll \/ h = Catch Exception) /\ message o <> "Unhandled call!"%string /\ message o <> "Unsupported call!"%string.
Proof.
  intros o h H. assert (E : o = Obj Exception "std::exception").
  { cbn in H. repeat (destruct H as [<-|H]; [reflexivity|]). destruct H. }
  subst o. split; [|split; discriminate]. destruct h as [[]|]; cbn; split; intros Q; try discriminate; auto; destruct Q; discriminate.
Qed.
Print Assumptions C58_handlers_refuted.
(** The list covers every overload on every reported type. *)
Theorem C58_all_calls : (forall t, In (GetTM_rts t) default_calls /\ In (GetTM_matrix t) default_calls) /\
  (forall t, In (GetValue_rts t) default_calls /\ In (GetValue_matrix t) default_calls /\ In (GetValue_vector t) default_calls /\ In (GetValue_float t) default_calls).
Proof. split; intros []; cbn; tauto. Qed.
Print Assumptions C58_all_calls.
(** Setting the frame rate of a motion that does not allow it throws an object that handlers for
    std::exception and std::runtime_error do not take, only handlers for ModifyError and catch-all ones. *)
Theorem C58_modify_refuted : forall h, takes h FrameRate = true <-> h = CatchAll \/ h = Catch ModifyError.
Proof. intros [[]|]; cbn; split; intros Q; try discriminate; auto; destruct Q; discriminate. Qed.
Print Assumptions C58_modify_refuted.
(** Its message runs the property's name into the next word, for every name. *)
Theorem C58_modify_message_refuted : forall name, message (MakeModifyError name) <> ("Setting " ++ name ++ " is forbidden for this class!")%string.
Proof.
  intros name H. cbn [message MakeModifyError] in H. assert (L : forall a b, String.length (a ++ b) = (String.length a + String.length b)%nat).
  { induction a as [|c a IH]; intros b; [reflexivity|]. cbn. now rewrite IH. }
  apply (f_equal String.length) in H. rewrite !L in H. cbn [String.length] in H. lia.
Qed.
Print Assumptions C58_modify_message_refuted.
