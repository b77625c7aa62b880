(** C70: the text a view shows. *)
From Verif Require Import Base View_Model.

(** The view lies inside the memory and shows [t]; [before] and [after] are the rest of the memory. *)
Definition shows (mem : list Z) (v : view) (t : list Z) : Prop :=
  exists before after, mem = before ++ t ++ after /\ m_str v = Z.of_nat (length before) /\ m_size v = Z.of_nat (length t).

(** A history of modifiers, and what it means for the text.  Each removes no more than there is. *)
Inductive modifier := RemovePrefix (n : Z) | RemoveSuffix (n : Z) | Resize (n : Z).
Definition modify (m : modifier) (v : view) : view :=
  match m with RemovePrefix n => remove_prefix n v | RemoveSuffix n => remove_suffix n v | Resize n => resize n v end.
Definition amount (m : modifier) : Z := match m with RemovePrefix n | RemoveSuffix n | Resize n => n end.
Definition kept (m : modifier) (t t' : list Z) : Prop :=
  match m with
  | RemovePrefix n => exists gone, t = gone ++ t' /\ Z.of_nat (length gone) = n
  | RemoveSuffix n => exists gone, t = t' ++ gone /\ Z.of_nat (length gone) = n
  | Resize n => exists gone, t = t' ++ gone /\ Z.of_nat (length t') = n
  end.
Inductive legal : list modifier -> list Z -> list Z -> Prop :=
| legal_nil t : legal [] t t
| legal_cons m ms t t' t'' : kept m t t' -> legal ms t' t'' -> legal (m :: ms) t t''.
