(** C20 ordering, C21 character search, C22 substring search, C23 access. *)
From Verif Require Import Base StringView_Model StringView_Spec StringView_Proof.

(** C20: all six operators are the lexicographic order ... *)
Theorem C20_operators : forall a b,
  (sv_eq a b = true <-> a = b) /\ (sv_ne a b = true <-> a <> b) /\
  (sv_lt a b = true <-> lex_lt a b) /\ (sv_gt a b = true <-> lex_lt b a) /\
  (sv_le a b = true <-> (lex_lt a b \/ a = b)) /\ (sv_ge a b = true <-> (lex_lt b a \/ a = b)).
Proof. exact operators_agree. Qed.
Print Assumptions C20_operators.

Theorem C20_compare_sign : forall a b,
  (sv_compare a b = 0 <-> a = b) /\ (sv_compare a b < 0 <-> lex_lt a b) /\ (sv_compare a b > 0 <-> lex_lt b a).
Proof. exact compare_iff. Qed.
Print Assumptions C20_compare_sign.

(** ... which is a strict total order. *)
Theorem C20_strict_total_order :
  (forall a, ~ lex_lt a a) /\ (forall a b c, lex_lt a b -> lex_lt b c -> lex_lt a c) /\
  (forall a b, lex_lt a b \/ a = b \/ lex_lt b a).
Proof. exact (conj lex_irrefl (conj traits_trans lex_total)). Qed.
Print Assumptions C20_strict_total_order.

(** C21: set searches return the least/greatest qualifying index or npos. *)
Theorem C21_find_first_of : forall s v pos, 0 <= pos ->
  exists r, sv_find_first_of s v pos = Some r /\ least_in (char_in s v) pos (size s) npos r.
Proof. exact find_first_of_spec. Qed.
Print Assumptions C21_find_first_of.

Theorem C21_find_last_of : forall s v pos, 0 <= pos < 2 ^ 64 -> size s < 2 ^ 64 -> (s = [] -> pos = npos) ->
  exists r, sv_find_last_of s v pos = Some r /\
            greatest_in (char_in s v) 0 (Z.min (size s) (pos + 1)) npos r.
Proof. exact find_last_of_spec. Qed.
Print Assumptions C21_find_last_of.

(** the excluded case reads outside the (empty) view *)
Theorem C21_find_last_of_empty_refuted : forall c v pos, 0 <= pos < npos -> sv_find_last_of [] (c :: v) pos = None.
Proof. exact find_last_of_empty_ub. Qed.
Print Assumptions C21_find_last_of_empty_refuted.

(** the complemented searches use only the first character of the set *)
Theorem C21_find_first_not_of : forall s x v pos, 0 <= pos ->
  exists r, sv_find_first_not_of s (x :: v) pos = Some r /\ least_in (char_not s x) pos (size s) npos r.
Proof. exact find_first_not_of_spec. Qed.
Print Assumptions C21_find_first_not_of.

Theorem C21_find_last_not_of : forall s x v pos, 0 <= pos < 2 ^ 64 -> size s < 2 ^ 64 -> (s = [] -> pos = npos) ->
  exists r, sv_find_last_not_of s (x :: v) pos = Some r /\
            greatest_in (char_not s x) 0 (Z.min (size s) (pos + 1)) npos r.
Proof. exact find_last_not_of_spec. Qed.
Print Assumptions C21_find_last_not_of.

(** against an empty set no character counts as outside it: nothing is found in any text *)
Theorem C21_empty_set_refuted : forall s pos, 0 <= pos ->
  sv_find_first_not_of s [] pos = Some npos /\ sv_find_last_not_of s [] pos = Some npos /\
  sv_find_first_of s [] pos = Some npos /\ sv_find_last_of s [] pos = Some npos.
Proof.
  intros s pos Hp.
  assert (U : forall f k i, (forall j, f j = Some false) -> scan_up f k i = Some npos).
  { intros f k. induction k as [|k IH]; intros i Hf; cbn [scan_up]; [reflexivity|]. rewrite Hf. apply IH, Hf. }
  assert (D : forall f k i, (forall j, f j = Some false) -> scan_down f k i = Some npos).
  { intros f k. induction k as [|k IH]; intros i Hf; cbn [scan_down]; [reflexivity|]. rewrite Hf. apply IH, Hf. }
  assert (E : forall f i, (forall j, f j = Some false) -> down_from f i = Some npos).
  { intros f i Hf. unfold down_from. destruct (i =? npos); [reflexivity|]. apply D, Hf. }
  repeat split; first [apply U | apply E]; intros j; reflexivity.
Qed.
Print Assumptions C21_empty_set_refuted.

(** find(char) is right except that it never looks at the last character *)
Theorem C21_find_char : forall s c pos, 0 <= pos ->
  exists r, sv_find s [c] pos = Some r /\ least_in (char_in s [c]) pos (size s - 1) npos r.
Proof. exact find_char_spec. Qed.
Print Assumptions C21_find_char.

Theorem C21_find_char_last_refuted : exists s c, char_in s [c] 2 /\ sv_find s [c] 0 = Some npos.
Proof. exists [1; 2; 3], 3. split; [exists 3; split; [reflexivity|left; reflexivity]|vm_compute; reflexivity]. Qed.
Print Assumptions C21_find_char_last_refuted.

(** rfind(char), on texts of two or more characters, likewise *)
Theorem C21_rfind_char : forall s c pos, 2 <= size s < 2 ^ 64 -> 0 <= pos < 2 ^ 64 ->
  exists r, sv_rfind s [c] pos = Some r /\
            greatest_in (char_in s [c]) 0 (Z.min (size s - 1) (pos + 1)) npos r.
Proof. exact rfind_char_spec. Qed.
Print Assumptions C21_rfind_char.

(** rfind(view) compares the needle backwards: it misses real occurrences,
    reports reversed ones, and can read before the text. *)
Theorem C22_rfind_view_refuted :
  (exists s v, occurs s v 1 /\ sv_rfind s v npos = Some npos) /\
  (exists s v r, sv_rfind s v npos = Some r /\ r <> npos /\ forall i, 0 <= i -> ~ occurs s v i) /\
  (exists s v, sv_rfind s v npos = None).
Proof.
  split; [|split].
  - exists [1; 2; 3; 4; 5], [2; 3]. split; [exists [1], [4; 5]; split; reflexivity|vm_compute; reflexivity].
  - exists [1; 3; 2; 5; 5; 5], [2; 3], 2. split; [vm_compute; reflexivity|]. split; [discriminate|].
    intros i Hi H. apply occurs_chars in H; [|exact Hi]. destruct H as [Hb H].
    change (size [2; 3]) with 2 in *. change (size [1; 3; 2; 5; 5; 5]) with 6 in *.
    pose proof (H 0 ltac:(lia)) as H0. pose proof (H 1 ltac:(lia)) as H1.
    assert (C : i = 0 \/ i = 1 \/ i = 2 \/ i = 3 \/ i = 4) by lia.
    destruct C as [->|[->|[->|[->| ->]]]]; vm_compute in H0, H1; discriminate.
  - exists [2; 9; 9; 9], [2; 3]. vm_compute. reflexivity.
Qed.
Print Assumptions C22_rfind_view_refuted.

(** What rfind(view) computes, for a needle shorter than the text: the greatest index, below the last possible one, from which the needle is
    the text read backwards - unless the comparison first runs over the start of the text. *)
Theorem C22_rfind_view_exact : forall s v pos, size v < size s < 2 ^ 64 -> 0 <= pos < 2 ^ 64 ->
  let top := Z.min (size s - size v) (pos + 1) in
  match sv_rfind s v pos with
  | Some r => greatest_in (rev_at s v) 0 top npos r /\ forall i, (r = npos \/ r < i) -> 0 <= i < top -> ~ falls s v i
  | None => exists i, 0 <= i < top /\ falls s v i /\ forall k, i < k < top -> ~ rev_at s v k /\ ~ falls s v k
  end.
Proof. exact rfind_exact. Qed.
Print Assumptions C22_rfind_view_exact.

(** C22: what find(view) computes for needles of two or more characters: the
    least index, excluding the last possible one, at which all characters but
    the first agree. *)
Theorem C22_find_view_exact : forall s v pos, 0 <= pos -> 2 <= size v ->
  exists r, sv_find s v pos = Some r /\
    least_in (fun i => forall j, 1 <= j < size v -> char_at s (i + j) = char_at v j)
             pos (size s - size v) npos r.
Proof. exact find_view_spec. Qed.
Print Assumptions C22_find_view_exact.

(** Hence a real occurrence that does not end the text is never skipped ... *)
Theorem C22_find_view_no_skip : forall s v pos i r, 0 <= pos -> 2 <= size v ->
  sv_find s v pos = Some r -> occurs s v i -> pos <= i -> i + size v < size s -> r <= i.
Proof. exact find_view_no_skip. Qed.
Print Assumptions C22_find_view_no_skip.

(** ... but the answer may be no occurrence at all, and an occurrence at the end is missed. *)
Theorem C22_find_view_refuted :
  (exists s v r, sv_find s v 0 = Some r /\ r <> npos /\ ~ occurs s v r) /\
  (exists s v, occurs s v 1 /\ sv_find s v 0 = Some npos).
Proof.
  split.
  - exists [1; 2; 9; 9], [7; 2], 0. split; [vm_compute; reflexivity|]. split; [discriminate|].
    intros H. apply occurs_chars in H; [|lia]. destruct H as [_ H]. specialize (H 0 ltac:(vm_compute; split; congruence)).
    vm_compute in H. discriminate.
  - exists [1; 2; 3], [2; 3]. split; [exists [1], []; split; reflexivity|vm_compute; reflexivity].
Qed.
Print Assumptions C22_find_view_refuted.

(** C23 *)
Theorem C23_at : forall s pos, 0 <= pos ->
  (pos < size s -> exists c, sv_at s pos = Ret (Some c) /\ char_at s pos = Some c) /\
  (size s <= pos -> sv_at s pos = Throw).
Proof. exact at_spec. Qed.
Print Assumptions C23_at.

Theorem C23_substr : forall s pos len, 0 <= pos -> 0 <= len ->
  (pos < size s -> exists a b m, sv_substr s pos len = Ret m /\ s = a ++ m ++ b /\
      size a = pos /\ size m = Z.min len (size s - pos)) /\
  (size s <= pos -> sv_substr s pos len = Throw).
Proof. exact substr_spec. Qed.
Print Assumptions C23_substr.

(** copy writes one character more than asked for, and nothing at all with the
    default count. *)
Theorem C23_copy_exact : forall s pos count, 0 <= pos -> 0 <= count < 2 ^ 64 ->
  (pos < size s -> exists m, sv_copy s count pos = Ret m /\
     (exists a b, s = a ++ m ++ b /\ size a = pos) /\
     size m = if count =? 2 ^ 64 - 1 then 0 else Z.min (size s - pos) (count + 1)) /\
  (size s <= pos -> sv_copy s count pos = Throw).
Proof. exact copy_spec. Qed.
Print Assumptions C23_copy_exact.

Example C20_C23_cases :
  sv_lt [97; 98] [97; 98; 99] = true /\ sv_lt [97; 200] [97; 98; 99] = false /\
  sv_find_first_of [5; 6; 7; 6] [6; 9] 0 = Some 1 /\ sv_find_last_of [5; 6; 7; 6] [6; 5] npos = Some 3 /\
  sv_find_last_of [5; 6; 7; 6] [6; 5] 2 = Some 1 /\
  sv_find [1; 2; 3; 4; 5] [2; 3] 0 = Some 1 /\ sv_substr [1; 2; 3] 1 npos = Ret [2; 3] /\
  sv_copy [1; 2; 3] 1 0 = Ret [1; 2] /\ sv_find_first_not_of [1; 2; 1] [1; 2] 0 = Some 1.
Proof. vm_compute. repeat split; reflexivity. Qed.
