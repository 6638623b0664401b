(* Induction over expressions, through the lists and records nested in them. *)
From Verif Require Export Write.

(* The expressions directly inside an item of the SELECT list. *)
Definition selexpr_children (s : selexpr) : list expr :=
  match s with SExists e | SNotExists e => [e] | _ => [] end.

(* The expressions directly inside a SELECT, in the order in which they are written. *)
Definition select_children (s : select) : list expr :=
  (map wq_sub (s_with s) ++ flat_map selexpr_children (s_exprs s) ++ map j_cond (s_joins s)
   ++ [s_where s; s_having s])%list.

Definition children (e : expr) : list expr :=
  match e with
  | ENil | EIdent _ | EValue _ | ERaw _ | EOn _ _ => []
  | EArrayList l | EArray l | ECall _ l => l
  | EWrap x | EExists x | ENotExists x => [x]
  | EInfix l _ r | EInfixOn l _ r => [l; r]
  | EIn x _ v => [x; v]
  | EBetween _ _ f _ t => [f; t]
  | ESelect s => select_children s
  end.

Section Ind.
  Context (P : expr -> Prop).
  Hypothesis step : forall e, (forall x, In x (children e) -> P x) -> P e.

  Fixpoint expr_children_ind (e : expr) : P e.
  Proof.
    assert (HL : forall l : list expr, (forall x, In x l -> P x) <-> Forall P l).
    { intro l; split; [apply Forall_forall | intro H; apply Forall_forall; exact H]. }
    apply step; apply HL.
    destruct e as [|g|g|l|l|s|x|f l|l o r|x o v|g o f a t|x|x|s|l r|l o r]; cbn [children];
      try (revert l; fix IH 1; intros [|y ys]; constructor; [apply expr_children_ind | apply IH]);
      try (repeat (constructor; try apply expr_children_ind); fail).
    destruct s as [pre wi di don es fr js wh gb hv ob li off su co].
    unfold select_children; cbn [s_with s_exprs s_joins s_where s_having].
    apply Forall_app; split; [|apply Forall_app; split; [|apply Forall_app; split]].
    - revert wi. fix IH 1. intros [|q qs]; [constructor|].
      destruct q as [n x]; cbn [map wq_sub]. constructor; [apply expr_children_ind | apply IH].
    - revert es. fix IH 1. intros [|q qs]; [constructor|].
      destruct q as [|c|c|f v d a|x|x]; cbn [flat_map selexpr_children app]; try apply IH;
        (constructor; [apply expr_children_ind | apply IH]).
    - revert js. fix IH 1. intros [|q qs]; [constructor|].
      destruct q as [ty tb x]; cbn [map j_cond]. constructor; [apply expr_children_ind | apply IH].
    - repeat (constructor; try apply expr_children_ind).
  Defined.
End Ind.

Arguments expr_children_ind P step e : clear implicits.
