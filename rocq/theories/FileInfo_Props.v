(** C10 path decomposition, C11 file name, C12 explosion. *)
From Verif Require Import Base FileInfo_Model FileInfo_Spec FileInfo_Proof.

(** Every non-empty path loads. *)
Theorem C10_load_total : forall s, s <> [] -> exists f, Load s = Some f.
Proof. intros s H. destruct (load_some s H) as (f & E & _). exists f. exact E. Qed.
Print Assumptions C10_load_total.

Theorem C10_decompose : forall s f, ~ In 0 s -> Load s = Some f ->
  GetFullPath f = normal s /\
  GetFolder f ++ GetFilenameExt f = normal s /\
  GetFullPathNoExt f ++ GetExtension f = normal s /\
  ~ In slash (GetFilenameExt f) /\
  (GetFolder f = [] \/ exists t, GetFolder f = t ++ [slash]) /\
  (GetExtension f = [] -> forall i, (0 < i < length (normal s))%nat -> nth i (normal s) 0 <> dot) /\
  (GetExtension f <> [] -> exists t, GetExtension f = dot :: t /\ ~ In dot t /\ GetFullPathNoExt f <> []).
Proof. exact decompose. Qed.
Print Assumptions C10_decompose.

(** C11: the name and the extension make up the name with extension; the code
    has no valid answer exactly when the last dot is in a directory name. *)
Theorem C11_filename : forall s f, ~ In 0 s -> Load s = Some f ->
  match GetFilename f with
  | Some n => n ++ GetExtension f = GetFilenameExt f
  | None => exists a b, normal s = a ++ [dot] ++ b /\ a <> [] /\ ~ In dot b /\ In slash b
  end.
Proof. exact filename_split. Qed.
Print Assumptions C11_filename.

Theorem C11_filename_domain : forall s f, ~ In 0 s -> Load s = Some f ->
  (GetFilename f = None <-> exists a b, normal s = a ++ [dot] ++ b /\ a <> [] /\ ~ In dot b /\ In slash b).
Proof.
  intros s f Hz HL. split.
  - intros E. pose proof (filename_split s f Hz HL) as H. rewrite E in H. exact H.
  - intros (a & b & E & A & B & Sl). pose proof (filename_ok s f Hz HL) as K. destruct (GetFilename f) as [n|]; [exfalso|reflexivity].
    assert (Hne : s <> []) by (intros ->; discriminate).
    destruct (load_some s Hne) as (f' & E' & _ & _ & Ed). rewrite HL in E'. injection E' as <-.
    assert (La : lastDot f = length a).
    { rewrite Ed. destruct (find_last dot (normal s)) as [i|] eqn:F.
      - apply find_last_some in F. destruct F as (F1 & F2 & F3 & _). rewrite E in F1, F2, F3. rewrite !app_length in F1. cbn [length] in F1.
        assert (i = length a).
        { destruct (Nat.lt_trichotomy i (length a)) as [L|[L|L]]; [|exact L|].
          - exfalso. apply (F3 (length a)); [rewrite !app_length; cbn [length]; lia|]. rewrite app_nth2, Nat.sub_diag by lia. reflexivity.
          - exfalso. apply B. rewrite app_nth2 in F2 by lia. replace (i - length a)%nat with (S (i - length a - 1)) in F2 by lia. cbn [app nth] in F2.
            rewrite <- F2. apply nth_In. lia. }
        subst i. destruct (length a) eqn:L0; [|reflexivity]. destruct a; [congruence|discriminate L0].
      - apply find_last_none in F. exfalso. apply F. rewrite E. apply in_or_app. right. left. reflexivity. }
    destruct (In_nth b slash 0 Sl) as (k & Kb & Kn).
    assert (G : (length a + S k < lastDot f)%nat); [|lia].
    apply K; [discriminate| |].
    + rewrite E. rewrite app_nth2 by lia. replace (length a + S k - length a)%nat with (S k) by lia. exact Kn.
    + rewrite La. destruct a; [congruence|cbn [length]; lia].
Qed.
Print Assumptions C11_filename_domain.

Theorem C11_dotted_directory_refuted : exists s f, ~ In 0 s /\ Load s = Some f /\ GetFilename f = None.
Proof.
  (* "a.b/c" *)
  exists [97; 46; 98; 47; 99]. eexists. split; [cbn; intuition lia|]. split; vm_compute; reflexivity.
Qed.
Print Assumptions C11_dotted_directory_refuted.

(** C12 *)
Theorem C12_explode : forall s f, ~ In 0 s -> Load s = Some f ->
  exists cs, Explode f = Some cs /\ components (drop_lead (normal s)) cs.
Proof. exact explode_components. Qed.
Print Assumptions C12_explode.

(** the specification determines the components *)
Theorem C12_components_unique : forall body cs cs', components body cs -> components body cs' -> cs = cs'.
Proof. exact components_unique. Qed.
Print Assumptions C12_components_unique.

Example C10_C12_case : (* "/ab\c.d/e.fg" *)
  exists f, Load [47; 97; 98; 92; 99; 46; 100; 47; 101; 46; 102; 103] = Some f /\
    GetFolder f = [47; 97; 98; 47; 99; 46; 100; 47] /\ GetFilename f = Some [101] /\
    GetExtension f = [46; 102; 103] /\
    Explode f = Some [[97; 98]; [99; 46; 100]; [101; 46; 102; 103]].
Proof. eexists. repeat split; vm_compute; reflexivity. Qed.
