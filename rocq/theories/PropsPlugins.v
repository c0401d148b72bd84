(** Properties C56 and C57: plugins. *)
From Verif Require Import Base ModelLabel SpecLabel ModelSTP ModelPlugins SpecPlugins ProofsPlugins.
Open Scope Z_scope.

(** C56: over any sequence of server starts and creations, whatever the
    database held at first, no identifier is handed out twice *)
Theorem C56_distinct : forall c ops, NoDup (snd (canarie_run c ops)).
Proof. intros c ops. exact (canarie_distinct ops c). Qed.
Print Assumptions C56_distinct.
Theorem C56_injective : forall a b, canarie_id a = canarie_id b -> a = b.
Proof. exact canarie_id_inj. Qed.
Print Assumptions C56_injective.
(** As long as the column has room, every creation after the first start gives an
    identifier, of the next number; then the database refuses. *)
Theorem C56_given : forall n, (n < 2147483647 -> canarie_create (Some n) = (Some (n + 1), Ok (canarie_id (n + 1)))) /\
  (2147483647 <= n -> canarie_create (Some n) = (Some n, Err EDatabase)).
Proof.
  intros n. unfold canarie_create, backend_connection_id. change SERIAL_MAX with 2147483647. split; intros H.
  - destruct (Z.leb_spec 2147483647 n); [lia|reflexivity].
  - destruct (Z.leb_spec 2147483647 n); [reflexivity|lia].
Qed.
Print Assumptions C56_given.
Example C56_ex : canarie_run None [CCreate; CSetup (Some 189999); CCreate; CCreate; CSetup (Some 189999); CCreate] =
  (Some 190002, ["19000CS0-ANA"; "19000CS1-ANA"; "19000CS2-ANA"]).
Proof. reflexivity. Qed.

(** C57: networks, ports and links stay *)
Theorem C57_places_kept : forall ns path p', prune_labels ns path = Ok p' -> map places p' = map places path.
Proof. exact prune_places. Qed.
Print Assumptions C57_places_kept.
(** both sides of a demarcation next to a listed link get one label *)
Theorem C57_demarcations_joined : forall ns path p', prune_labels ns path = Ok p' -> forall i l m,
  nth_error p' i = Some l -> nth_error p' (S i) = Some m ->
  touched ns (nth_error path i) \/ touched ns (nth_error path (S i)) ->
  s_label (l_dst l) = s_label (l_src m) /\ s_label (l_dst l) <> None.
Proof. exact prune_demarc. Qed.
Print Assumptions C57_demarcations_joined.
(** ends not next to a listed link are left alone *)
Theorem C57_others_kept : forall ns path p', prune_labels ns path = Ok p' -> forall i l l',
  nth_error path i = Some l -> nth_error p' i = Some l' -> ~ in_listed ns l ->
  ((forall j, i = S j -> ~ touched ns (nth_error path j)) -> l_src l' = l_src l) /\
  (~ touched ns (nth_error path (S i)) -> l_dst l' = l_dst l).
Proof. exact prune_others. Qed.
Print Assumptions C57_others_kept.
(** a listed link whose neighbours are not listed: both ends get the
    intersection of the two labels *)
Theorem C57_common_label_partial : forall ns path p', prune_labels ns path = Ok p' -> labelled path -> forall i l l',
  nth_error path i = Some l -> nth_error p' i = Some l' -> in_listed ns l ->
  (forall j, i = S j -> ~ touched ns (nth_error path j)) -> ~ touched ns (nth_error path (S i)) ->
  exists a b x, s_label (l_src l) = Some a /\ s_label (l_dst l) = Some b /\ s_label (l_src l') = Some x /\ s_label (l_dst l') = Some x /\
    narrows x a /\ narrows x b /\ wf_values (lvalues x) /\ (forall z, denotes (lvalues a) z -> denotes (lvalues b) z -> denotes (lvalues x) z).
Proof. exact prune_isolated. Qed.
Print Assumptions C57_common_label_partial.
(** any listed link: its source label narrows its original destination label,
    its destination label narrows its source label, and the first of a run of
    listed links narrows its original source label *)
Theorem C57_run_narrows_partial : forall ns path p', prune_labels ns path = Ok p' -> labelled path -> forall i l l',
  nth_error path i = Some l -> nth_error p' i = Some l' -> in_listed ns l ->
  exists b x, s_label (l_dst l) = Some b /\ s_label (l_src l') = Some x /\ narrows x b /\ wf_values (lvalues x) /\
    (forall y, s_label (l_dst l') = Some y -> narrows y x) /\
    ((forall j, i = S j -> ~ touched ns (nth_error path j)) -> exists a, s_label (l_src l) = Some a /\ narrows x a).
Proof. exact prune_chain. Qed.
Print Assumptions C57_run_narrows_partial.

Definition vl (lo hi : Z) : option label := Some (mkLabel "vlan" [(lo, hi)]).
Definition lk (n p q : string) (a b : option label) : link := mkLink (mkSTP n p a) (mkSTP n q b).
Definition ex_path : list link :=
  [lk "aruba:topology" "ps" "bon" (vl 1 9) (vl 1 9); lk "bonaire:topology" "aru" "cur" (vl 2 8) (vl 3 12); lk "curacao:topology" "bon" "x" (vl 1 9) (vl 1 9)].
Example C57_ex : prune_labels ["bonaire"] ex_path = Ok
  [lk "aruba:topology" "ps" "bon" (vl 1 9) (vl 3 8); lk "bonaire:topology" "aru" "cur" (vl 3 8) (vl 3 8); lk "curacao:topology" "bon" "x" (vl 3 8) (vl 1 9)].
Proof. reflexivity. Qed.
Example C57_ex_hyp : labelled ex_path.
Proof.
  intros l [<-|[<-|[<-|[]]]]; do 2 eexists; cbn; (split; [reflexivity|split; [reflexivity|]]);
    split; (split; [discriminate|split; [constructor; lia|intros lo hi [E|[]]; injection E as <- <-; lia]]).
Qed.

(** Two neighbouring listed networks: the two ends of the first link differ, and
    a label may leave the set asked for at an end. *)
Theorem C57_common_label_refuted :
  ~ (forall ns path p', prune_labels ns path = Ok p' -> labelled path -> forall i l', nth_error p' i = Some l' -> in_listed ns l' ->
       s_label (l_src l') = s_label (l_dst l')) /\
  ~ (forall ns path p', prune_labels ns path = Ok p' -> labelled path -> forall i l l' a x, nth_error path i = Some l -> nth_error p' i = Some l' -> in_listed ns l ->
       s_label (l_src l) = Some a -> s_label (l_src l') = Some x -> narrows x a).
Proof.
  pose (path := [lk "ab" "p" "q" (vl 1 9) (vl 1 9); lk "ac" "p" "q" (vl 2 4) (vl 1 7)]).
  pose (p' := [lk "ab" "p" "q" (vl 1 9) (vl 1 7); lk "ac" "p" "q" (vl 1 7) (vl 1 7)]).
  assert (R : prune_labels ["a"%string] path = Ok p') by reflexivity.
  assert (W : labelled path).
  { intros l [<-|[<-|[]]]; do 2 eexists; cbn; (split; [reflexivity|split; [reflexivity|]]);
    split; (split; [discriminate|split; [constructor; lia|intros lo hi [E|[]]; injection E as <- <-; lia]]). }
  split; intros H.
  - specialize (H _ _ _ R W 0%nat _ eq_refl). cbn in H.
    assert (E : vl 1 9 = vl 1 7) by (apply H; exists "a"%string, ""%string, "b"%string; split; [left|]; reflexivity). discriminate.
  - specialize (H _ _ _ R W 1%nat _ _ _ _ eq_refl eq_refl (ex_intro _ "a"%string (ex_intro _ ""%string (ex_intro _ "c"%string (conj (or_introl eq_refl) eq_refl)))) eq_refl eq_refl).
    destruct H as [_ H]. destruct (H 1) as (lo & hi & [E|[]] & Hz); [exists 1, 7; cbn; split; [auto|lia]|]. injection E as <- <-. lia.
Qed.
Print Assumptions C57_common_label_refuted.
