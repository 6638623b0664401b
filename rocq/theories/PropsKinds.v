(* C68: a builder handed over as the interface Builder. *)
From Coq Require Import String List.
From Verif Require Import Ast Write Api Parser Build Sort Kinds.
Import ListNotations.
Local Open Scope string_scope.
Local Open Scope list_scope.

(* ------------------------------------------------------------------------- *)
(* Specification                                                               *)
(* ------------------------------------------------------------------------- *)

(* How a builder is made: loukoum.Select, Insert, Update or Delete, and then any methods. *)
Inductive made {O : Oracle} : kind -> stmt -> Prop :=
| made_select : forall columns q0 calls q,
    lk_select columns = Ok q0 -> sel_run q0 calls = Ok q -> made ASelect (StSelect q)
| made_insert : forall into i0 calls i,
    lk_insert into = Ok i0 -> ins_run i0 calls = Ok i -> made AnInsert (StInsert i)
| made_update : forall table u0 calls u,
    lk_update table = Ok u0 -> upd_run u0 calls = Ok u -> made AnUpdate (StUpdate u)
| made_delete : forall from d0 calls d,
    lk_delete from = Ok d0 -> del_run d0 calls = Ok d -> made ADelete (StDelete d).

(* What the four functions answer, in the order Select, Insert, Update, Delete. *)
Definition answers (b : held) : list bool :=
  [is_select_builder b; is_insert_builder b; is_update_builder b; is_delete_builder b].

(* What they should answer for a builder of that kind. *)
Definition right_answers (k : kind) : list bool :=
  match k with
  | ASelect => [true; false; false; false]
  | AnInsert => [false; true; false; false]
  | AnUpdate => [false; false; true; false]
  | ADelete => [false; false; false; true]
  end.

Definition no_answer : list bool := [false; false; false; false].

(* ------------------------------------------------------------------------- *)
(* C68                                                                         *)
(* ------------------------------------------------------------------------- *)

Lemma made_struct {O : Oracle} : forall k s, made k s -> struct_of s = k.
Proof. intros k s H. destruct H; reflexivity. Qed.

(* The functions recognise a builder that is handed over by its address. Missing: builders handed
   over as the constructors and methods return them, which C68_values_refuted shows to be
   recognised by none of the four. *)
Theorem C68_addresses_partial {O : Oracle} : forall k s,
  made k s -> answers (Pointer s) = right_answers k.
Proof. intros k s H. destruct H; reflexivity. Qed.
Print Assumptions C68_addresses_partial.

(* Every builder there is, as the constructors and the methods return it, is recognised by none. *)
Theorem C68_values_refuted {O : Oracle} : forall k s,
  made k s -> answers (Value s) = no_answer /\ answers (Value s) <> right_answers k.
Proof. intros k s H. split; [reflexivity|]. destruct H; discriminate. Qed.
Print Assumptions C68_values_refuted.

(* What each answer means, for anything that implements the interface. *)
Theorem C68_answers_exactly : forall k b,
  answers b = right_answers k <-> b = NilPointer k \/ exists s, struct_of s = k /\ b = Pointer s.
Proof.
  intros k b. split.
  - destruct b as [|s|s|k'|]; try (destruct k; discriminate).
    + intro H. right. exists s. split; [|reflexivity]. destruct k, s; try discriminate H; reflexivity.
    + intro H. left. destruct k, k'; try discriminate H; reflexivity.
  - intros [->|(s & H & ->)]; [destruct k; reflexivity|]. destruct s; cbn in H; rewrite <- H; reflexivity.
Qed.
Print Assumptions C68_answers_exactly.

Theorem C68_otherwise_none : forall b,
  answers b = no_answer \/ exists k, answers b = right_answers k.
Proof.
  intros [|s|s|k|]; try (left; reflexivity); right;
    [exists (struct_of s); destruct s|exists k; destruct k]; reflexivity.
Qed.
Print Assumptions C68_otherwise_none.

(* Query, NamedQuery and String give through the interface what they give on the builder itself,
   for the builder and for its address. *)
Theorem C68_same_query {O : Oracle} : forall k s b, made k s -> b = Value s \/ b = Pointer s ->
  through query b = Some (query s)
  /\ through named_query b = Some (named_query s)
  /\ through to_string b = Some (to_string s).
Proof. intros k s b _ [->| ->]; repeat split. Qed.
Print Assumptions C68_same_query.

(* ------------------------------------------------------------------------- *)
(* Examples                                                                    *)
(* ------------------------------------------------------------------------- *)

Definition users_query : res select :=
  do q <- lk_select [GStr "id"]; sel_run q [SelFrom [GStr "users"]; SelLimit (GInt KInt 3)].
Definition users_select : stmt :=
  match users_query with Ok q => StSelect q | Panic _ => StSelect new_select end.

Example users_made : @made go_oracle ASelect users_select.
Proof. eapply (made_select [GStr "id"] _ [SelFrom [GStr "users"]; SelLimit (GInt KInt 3)]); vm_compute; reflexivity. Qed.
Example users_unrecognised :
  is_select_builder (Value users_select) = false /\ is_select_builder (Pointer users_select) = true
  /\ is_delete_builder (Pointer users_select) = false.
Proof. repeat split. Qed.
Example users_through : @through _ (@query go_oracle) (Pointer users_select)
  = Some (Ok ("SELECT ""id"" FROM ""users"" LIMIT 3", [])).
Proof. vm_compute. reflexivity. Qed.

Definition logs_delete : stmt :=
  match lk_delete (GStr "logs") with Ok d => StDelete d | Panic _ => StDelete new_delete end.
Example logs_made : @made go_oracle ADelete logs_delete.
Proof. eapply (made_delete (GStr "logs") _ []); vm_compute; reflexivity. Qed.
Example logs_unrecognised : answers (Value logs_delete) = no_answer.
Proof. exact (proj1 (C68_values_refuted (O := go_oracle) _ _ logs_made)). Qed.
