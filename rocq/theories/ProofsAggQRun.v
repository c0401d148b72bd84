(** Recursive queries over whole runs (C46). *)
From Verif Require Import Base BaseProofs ModelLabel ModelSTP ModelAuthz ModelNRM ModelState ModelLinkVector ModelProvreg ModelAggregator SpecAggInv ProofsAggInv ProofsAggTab ProofsAggAct.

(** * Programs that leave the query tables alone *)
Definition neutral (a : act) : Prop :=
  match a with
  | AQreq _ _ | AQreqPop _ | AQcall _ _ | AQcallPop _ => False
  | AOut (OUp _ (UQueryRecursive _ _)) | AOut (ODown _ _ (DQuery _)) => False
  | _ => True
  end.
Fixpoint calmN (N : act -> Prop) {A} (p : prog A) : Prop :=
  match p with
  | Ret _ | Throw _ => True
  | Get k => forall s, calmN N (k s)
  | Do a k => N a /\ calmN N k
  | Await _ k => forall a, calmN N (k a)
  end.
Notation calm := (calmN neutral).
Definition strict (a : act) : Prop :=
  match a with
  | AResv _ _ | AOut (ODown _ _ (DReserve _ _ _ _ _ _)) => False
  | _ => neutral a
  end.
Notation mild := (calmN strict).
Definition quiet (a : act) : Prop := match a with AOut _ => False | _ => strict a end.
Notation still := (calmN quiet).
Lemma calm_mono (N N' : act -> Prop) {A} (p : prog A) : (forall a, N a -> N' a) -> calmN N p -> calmN N' p.
Proof. intros H. induction p as [a|e|k IH|a k IH|w k IH]; cbn; auto. intros [H1 H2]; auto. Qed.
Lemma strict_neutral a : strict a -> neutral a.
Proof. destruct a; cbn; try tauto. destruct x; auto. destruct b; auto. Qed.
Lemma quiet_strict a : quiet a -> strict a.
Proof. destruct a; cbn; tauto. Qed.
Lemma quiet_neutral a : quiet a -> neutral a.
Proof. intros H. apply strict_neutral, quiet_strict, H. Qed.
Lemma still_mild {A} (p : prog A) : still p -> mild p.
Proof. apply calm_mono, quiet_strict. Qed.
Lemma mild_calm {A} (p : prog A) : mild p -> calm p.
Proof. apply calm_mono, strict_neutral. Qed.
Section Calm.
Context (N : act -> Prop).
Lemma calm_bind {A B} (p : prog A) (f : A -> prog B) : calmN N p -> (forall a, calmN N (f a)) -> calmN N (bind p f).
Proof. intros H HF. induction p as [a|e|k IH|a k IH|w k IH]; cbn in *; auto. destruct H; auto. Qed.
Lemma calm_mapP {A B} (f : A -> prog B) l : (forall a, calmN N (f a)) -> calmN N (mapP f l).
Proof. intros H. induction l as [|a l IH]; cbn; auto. apply calm_bind; auto. intros b. apply calm_bind; auto. intros bs. exact I. Qed.
Lemma calm_iterP {A} (f : A -> prog unit) l : (forall a, In a l -> calmN N (f a)) -> calmN N (iterP f l).
Proof. intros H. induction l as [|a l IH]; cbn; auto. apply calm_bind; [apply H; cbn; auto|]. intros _. apply IH. intros b Hb. apply H. cbn; auto. Qed.
Lemma calm_lift {A} (r : result A) : calmN N (lift r).
Proof. destruct r; exact I. Qed.
Lemma calm_await w : calmN N (await w).
Proof. cbn. intros []; exact I. Qed.
Lemma calm_id : calmN N await_id.
Proof. cbn. intros []; exact I. Qed.
Lemma calm_acks n : calmN N (await_acks n).
Proof. cbn. intros []; exact I. Qed.
Lemma calm_act a : N a -> calmN N (act1 a).
Proof. cbn. auto. Qed.
End Calm.
Ltac calm1 :=
  match goal with
  | |- calmN _ (bind _ _) => apply calm_bind; [|intros]
  | |- calmN _ (mapP _ _) => apply calm_mapP; intros
  | |- calmN _ (iterP _ _) => apply calm_iterP; intros
  | |- calmN _ (lift _) => apply calm_lift
  | |- calmN _ (await _) => apply calm_await
  | |- calmN _ await_id => apply calm_id
  | |- calmN _ (await_acks _) => apply calm_acks
  | |- calmN _ (act1 _) => apply calm_act; exact I
  | |- calmN _ (Ret _) => exact I
  | |- calmN _ (Throw _) => exact I
  | |- calmN _ (throw _) => exact I
  | |- calmN _ get => intros ?; exact I
  | |- calmN _ (out (OUp _ _)) => apply calm_act; exact I
  | |- calmN _ (out (ODown _ _ (DReserve _ _ _ _ _ _))) => apply calm_act; exact I
  | |- calmN _ (out (ODown _ _ (DTerminate _))) => apply calm_act; exact I
  | |- calmN _ (up _ _) => apply calm_act; exact I
  | |- calmN _ (match ?x with _ => _ end) => destruct x
  | |- calmN _ (let '(_, _) := ?x in _) => destruct x
  end.
Ltac calm := repeat calm1.
Lemma still_conn_obj o : still (conn_obj o). Proof. unfold conn_obj. calm. Qed.
Lemma calm_conn_obj o : mild (conn_obj o). Proof. apply still_mild, still_conn_obj. Qed.
Lemma still_sub_obj o : still (sub_obj o). Proof. unfold sub_obj. calm. Qed.
Lemma calm_sub_obj o : mild (sub_obj o). Proof. apply still_mild, still_sub_obj. Qed.
Lemma calm_save_conn o : mild (save_conn o). Proof. unfold save_conn. calm. apply calm_conn_obj. Qed.
Lemma calm_save_sub o : mild (save_sub o). Proof. unfold save_sub. calm. apply calm_sub_obj. Qed.
Lemma still_get_connection c : still (get_connection c). Proof. unfold get_connection. calm. Qed.
Lemma calm_get_connection c : mild (get_connection c). Proof. apply still_mild, still_get_connection. Qed.
Lemma calm_get_by_key k : mild (get_connection_by_key k). Proof. unfold get_connection_by_key. calm. apply calm_get_connection. Qed.
Lemma still_fetch_sub p c : still (fetch_sub p c). Proof. unfold fetch_sub. calm. Qed.
Lemma calm_fetch_sub p c : mild (fetch_sub p c). Proof. apply still_mild, still_fetch_sub. Qed.
Lemma calm_get_sub p c : mild (get_sub p c). Proof. unfold get_sub. calm. apply calm_fetch_sub. Qed.
Lemma still_get_subs k : still (get_subs k). Proof. unfold get_subs. calm. apply still_fetch_sub. Qed.
Lemma calm_get_subs k : mild (get_subs k). Proof. apply still_mild, still_get_subs. Qed.
Lemma still_sub_objs l : still (sub_objs l). Proof. unfold sub_objs. calm. apply still_sub_obj. Qed.
Lemma calm_sub_objs l : mild (sub_objs l). Proof. apply still_mild, still_sub_objs. Qed.
Lemma calm_new_corr : mild new_corr. Proof. unfold new_corr. calm. Qed.
Lemma still_note  : still (notification_id). Proof. unfold notification_id. calm. Qed.
Lemma calm_note  : mild (notification_id). Proof. apply still_mild, still_note. Qed.
Lemma calm_own_state x c : mild (own_state x c). Proof. unfold own_state, save_conn_val. calm. Qed.
Lemma calm_set_conn_state x o : mild (set_conn_state x o). Proof. unfold set_conn_state. calm. apply calm_conn_obj. Qed.
Lemma calm_conn_state x o : mild (conn_state x o). Proof. unfold conn_state. calm. apply calm_set_conn_state. apply calm_save_conn. Qed.
Lemma calm_set_sub_state x o : mild (set_sub_state x o). Proof. unfold set_sub_state. calm. apply calm_sub_obj. Qed.
Lemma calm_sub_state x o : mild (sub_state x o). Proof. unfold sub_state. calm. apply calm_set_sub_state. apply calm_save_sub. Qed.
Lemma calm_call_sub g h b o : (forall i, strict (AOut (ODown 0 h (b i)))) -> mild (call_sub g h b o).
Proof. intros H. unfold call_sub. apply calm_bind; [apply calm_sub_obj|intros x]. calm. apply calm_new_corr. apply calm_act. exact (H (sb_cid x)). Qed.
Lemma calm_finish c a u : mild (finish c a u). Proof. unfold finish. calm. Qed.
Lemma calm_open c : mild (open_connection c). Proof. unfold open_connection. calm. apply calm_get_connection. apply calm_conn_obj. Qed.
Lemma calm_force_r r o : mild (force_sub_r r o). Proof. unfold force_sub_r. calm. apply calm_sub_obj. apply calm_save_sub. Qed.
Lemma calm_force_l r o : mild (force_sub_l r o). Proof. unfold force_sub_l. calm. apply calm_sub_obj. apply calm_save_sub. Qed.
#[local] Hint Extern 2 (forall _, strict _) => (intros; exact I) : calm.
#[local] Hint Resolve calm_conn_obj calm_sub_obj calm_save_conn calm_save_sub calm_get_connection calm_get_by_key calm_fetch_sub calm_get_sub calm_get_subs
  calm_sub_objs calm_new_corr calm_note calm_own_state calm_set_conn_state calm_conn_state calm_set_sub_state calm_sub_state calm_call_sub calm_finish
  calm_open calm_force_r calm_force_l mild_calm : calm.
Ltac calma := repeat first [solve [auto with calm] | calm1].
Lemma calm_reserve g h q : calm (reserve g h q).
Proof. unfold reserve, insert_conn, reserve_link, reserve_acks, cleanup_one. calma. Qed.
Lemma calm_collect chg a b x (msg : string -> ubody) after h cid : (forall o, mild (chg o)) -> (forall c, strict (AOut (OUp "" (msg c)))) ->
  (forall f c, In f after -> strict (AOut (f c))) -> mild (collect chg a b x msg after h cid).
Proof.
  intros H1 H2 H3. unfold collect. calma.
  - unfold up, out. apply calm_act. match goal with |- strict (AOut (OUp _ (msg ?z))) => exact (H2 z) end.
  - unfold out. apply calm_act. apply H3. assumption.
Qed.
Definition is_query (c : call) : bool := match c with CQueryRecursive _ _ _ | CQueryRecursiveConfirmed _ _ => true | _ => false end.
Definition is_reserve (c : call) : bool := match c with CReserve _ _ => true | _ => false end.
Lemma mild_call g c : is_query c = false -> is_reserve c = false -> mild (call_prog g c).
Proof.
  intros H H'. destruct c; try discriminate; cbn [call_prog].
  - unfold reserve_commit. calma.
  - unfold reserve_abort. calma.
  - unfold provision. calma.
  - unfold release. calma.
  - unfold terminate. calma.
  - unfold query_summary. calma.
  - unfold reserve_confirmed, insert_sub. calma.
  - unfold reserve_failed. calma.
  - apply calm_collect; auto with calm; try (intros; exact I). intros f c [<-|[]]; exact I.
  - apply calm_collect; auto with calm; try (intros; exact I). intros f c [].
  - apply calm_collect; auto with calm; try (intros; exact I). intros f c [].
  - apply calm_collect; auto with calm; try (intros; exact I). intros f c [].
  - apply calm_collect; auto with calm; try (intros; exact I). intros f c [<-|[]]; exact I.
  - unfold reserve_timeout. calma.
  - unfold data_plane. calma.
  - unfold error. calma.
  - unfold error_event. calma.
Qed.

Lemma calm_call g c : is_query c = false -> calm (call_prog g c).
Proof.
  intros H. destruct (is_reserve c) eqn:E; [|apply mild_calm, mild_call; auto]. destruct c; try discriminate. apply calm_reserve.
Qed.

(** programs that wait for the database only / before calm code only *)
Fixpoint dbonly {A} (p : prog A) : Prop :=
  match p with
  | Ret _ | Throw _ => True
  | Get k => forall s, dbonly (k s)
  | Do _ k => dbonly k
  | Await WDb k => forall a, dbonly (k a)
  | Await _ _ => False
  end.
Fixpoint settled {A} (p : prog A) : Prop :=
  match p with
  | Ret _ | Throw _ => True
  | Get k => forall s, settled (k s)
  | Do _ k => settled k
  | Await WDb k => forall a, settled (k a)
  | Await _ k => forall a, calm (k a)
  end.
Lemma dbonly_settled {A} (p : prog A) : dbonly p -> settled p.
Proof. induction p as [a|e|k IH|a k IH|w k IH]; cbn; auto. destruct w; auto; contradiction. Qed.
Lemma calm_settled {A} (p : prog A) : calm p -> settled p.
Proof. induction p as [a|e|k IH|a k IH|w k IH]; cbn; auto. - intros [_ H]; auto. - destruct w; auto. Qed.
Lemma dbonly_bind {A B} (p : prog A) (f : A -> prog B) : dbonly p -> (forall a, dbonly (f a)) -> dbonly (bind p f).
Proof. intros H HF. induction p as [a|e|k IH|a k IH|w k IH]; cbn in *; auto. destruct w; auto; contradiction. Qed.
Lemma settled_bind {A B} (p : prog A) (f : A -> prog B) : dbonly p -> (forall a, settled (f a)) -> settled (bind p f).
Proof. intros H HF. induction p as [a|e|k IH|a k IH|w k IH]; cbn in *; auto. destruct w; auto; contradiction. Qed.
Lemma dbonly_mapP {A B} (f : A -> prog B) l : (forall a, dbonly (f a)) -> dbonly (mapP f l).
Proof. intros H. induction l as [|a l IH]; cbn; auto. apply dbonly_bind; auto. intros b. apply dbonly_bind; auto. intros bs. exact I. Qed.
Lemma dbonly_lift {A} (r : result A) : dbonly (lift r).
Proof. destruct r; exact I. Qed.
Lemma dbonly_await : dbonly (await WDb).
Proof. cbn. intros []; exact I. Qed.
Ltac db1 :=
  match goal with
  | |- dbonly (bind _ _) => apply dbonly_bind; [|intros]
  | |- dbonly (mapP _ _) => apply dbonly_mapP; intros
  | |- dbonly (lift _) => apply dbonly_lift
  | |- dbonly (await WDb) => apply dbonly_await
  | |- dbonly (act1 _) => exact I
  | |- dbonly (Ret _) => exact I
  | |- dbonly (throw _) => exact I
  | |- dbonly get => intros ?; exact I
  | |- dbonly (out _) => exact I
  | |- dbonly (up _ _) => exact I
  | |- dbonly (match ?x with _ => _ end) => destruct x
  end.
Ltac db := repeat db1.
Lemma db_conn_obj o : dbonly (conn_obj o). Proof. unfold conn_obj. db. Qed.
Lemma db_sub_obj o : dbonly (sub_obj o). Proof. unfold sub_obj. db. Qed.
Lemma db_get_connection o : dbonly (get_connection o). Proof. unfold get_connection. db. Qed.
Lemma db_fetch_sub p o : dbonly (fetch_sub p o). Proof. unfold fetch_sub. db. Qed.
Lemma db_get_subs o : dbonly (get_subs o). Proof. unfold get_subs. db. apply db_fetch_sub. Qed.
Lemma db_sub_objs o : dbonly (sub_objs o). Proof. unfold sub_objs. db. apply db_sub_obj. Qed.
Lemma db_note : dbonly notification_id. Proof. unfold notification_id. db. Qed.
Lemma db_new_corr : dbonly new_corr. Proof. unfold new_corr. db. Qed.
#[local] Hint Resolve db_conn_obj db_sub_obj db_get_connection db_fetch_sub db_get_subs db_sub_objs db_note db_new_corr : dbh.
Ltac dba := repeat first [solve [auto with dbh] | db1].
Lemma settled_query g h cids gids : settled (query_recursive g h cids gids).
Proof.
  unfold query_recursive. destruct gids; [|exact I]. destruct cids as [|cid [|]]; try exact I.
  do 5 (apply settled_bind; [dba|intros]). apply calm_settled. calma.
Qed.
Lemma settled_answer g h res : settled (query_recursive_confirmed g h res).
Proof. unfold query_recursive_confirmed. apply dbonly_settled. dba. Qed.

(** * All suspended calls are calm *)
Definition tasks_calm (m : mach) : Prop := forall i w k, aget i (m_tasks m) = Some (w, k) -> forall a, calm (k a).
Lemma settled_advance (p : prog string) : settled p -> forall s w k, fst (advance true p s) = Waits w k -> forall a, calm (k a).
Proof.
  induction p as [a|e|k IH|a k IH|w k IH]; cbn; intros H s w0 k0; try discriminate; eauto.
  destruct w; eauto; intros E; cbn in E; inversion E; subst; auto.
Qed.
Lemma settled_call g c : settled (call_prog g c).
Proof.
  destruct (is_query c) eqn:E; [|apply calm_settled, calm_call; auto].
  destruct c; try discriminate; cbn [call_prog]; [apply settled_query|apply settled_answer].
Qed.
Lemma record_tasks i p s m : settled p -> tasks_calm m -> tasks_calm (record i (advance true p s) m).
Proof.
  intros H HT. pose proof (settled_advance p H s) as W. unfold record.
  destruct (advance true p s) as [[a|e|w k] s']; cbn in *; auto.
  intros j w' k' E. cbn in E. rewrite aget_aset in E. destruct (eqb j i); [inversion E; subst; eauto|eauto].
Qed.
Lemma mstep_tasks g m e : mfresh m -> tasks_calm m -> tasks_calm (mstep g true m e).
Proof.
  intros HF H. destruct e as [c|i a|reg rv|reg rv]; cbn [mstep]; auto; [| |intros i w k E; discriminate].
  - apply record_tasks; [apply settled_call|exact H].
  - destruct (aget i (m_tasks m)) as [[w k]|] eqn:E; auto. destruct (answers w a); auto.
    apply record_tasks; [apply calm_settled; eauto|].
    intros j w' k' Ej. cbn in Ej. destruct (Nat.eq_dec j i) as [->|N].
    + rewrite aget_adel_eq in Ej; [discriminate|]. apply HF.
    + rewrite aget_adel_ne in Ej by auto. eauto.
Qed.

(** * Invariants of the query tables *)
Section QM.
  Context (IM : list call -> st -> Prop) (g : cfg)
    (NP : forall log s a, neutral a -> IM log s -> IM log (do_act a s))
    (LOG : forall log s c, is_query c = false -> IM log s -> IM (log ++ [c]) s)
    (TOP : forall log s reg rv, IM log s -> IM log (set_topology reg rv s))
    (RST : forall log s reg rv, IM log s -> IM log (restart_st reg rv s))
    (CALL : forall log s c, is_query c = true -> IM log s -> IM (log ++ [c]) (snd (advance true (call_prog g c) s))).
  Lemma calm_advance (p : prog string) log : calm p -> forall s, IM log s -> IM log (snd (advance true p s)).
  Proof.
    induction p as [a|e|k IH|a k IH|w k IH]; cbn; intros H s HI; auto.
    - destruct H. auto.
    - destruct w; auto.
  Qed.
  Lemma record_st i r m : m_st (record i r m) = snd r /\ m_log (record i r m) = m_log m.
  Proof. unfold record. destruct r as [[a|e|w k] s]; auto. Qed.
  Lemma q_step m e : tasks_calm m -> IM (m_log m) (m_st m) -> IM (m_log (mstep g true m e)) (m_st (mstep g true m e)).
  Proof.
    intros HT H. destruct e as [c|i a|reg rv|reg rv]; cbn [mstep]; auto.
    - set (m' := mkMach _ _ _ _ _). destruct (record_st (m_next m) (advance true (call_prog g c) (m_st m)) m') as [-> ->]. cbn.
      destruct (is_query c) eqn:E; [apply CALL; auto|]. apply calm_advance; [apply calm_call; auto|]. auto.
    - destruct (aget i (m_tasks m)) as [[w k]|] eqn:E; auto. destruct (answers w a); auto.
      set (m' := mkMach _ _ _ _ _). destruct (record_st i (advance true (k a) (m_st m)) m') as [-> ->]. cbn.
      apply calm_advance; eauto.
    - cbn. auto.
    - cbn. auto.
  Qed.
  Lemma q_run l : forall m, mfresh m -> tasks_calm m -> IM (m_log m) (m_st m) ->
    IM (m_log (mrun g true m l)) (m_st (mrun g true m l)) /\ mfresh (mrun g true m l) /\ tasks_calm (mrun g true m l).
  Proof.
    induction l as [|e l IH]; intros m H1 H2 H3; cbn; auto.
    apply IH; [apply mstep_fresh; auto|apply mstep_tasks; auto|apply q_step; auto].
  Qed.
End QM.

(** * The two programs: a logic for programs that do not suspend before their end *)
Notation yes := (fun (_ : list call) (_ : st) (_ : act) => True).
Notation any := (fun _ _ : st => True).
Definition wq {A} (IM : list call -> st -> Prop) (p : prog A) Q E log s := wp IM any yes p Q E log s.
Lemma wq_bind {A B} IM (p : prog A) (f : A -> prog B) Q E log s : wq IM p (fun a => wq IM (f a) Q E) E log s -> wq IM (bind p f) Q E log s.
Proof. apply wp_bind. Qed.
Lemma wq_calm {A} N IM (I : st -> Prop) (p : prog A) (E : list call -> st -> Prop) log : calmN N p -> dbonly p ->
  (forall s a, N a -> I s -> I (do_act a s)) -> (forall s, I s -> E log s) -> forall s, I s -> wq IM p (fun _ log' s' => log' = log /\ I s') E log s.
Proof.
  intros HC HD HN HE. unfold wq. induction p as [a|e|k IH|a k IH|w k IH]; cbn in *; intros s HI; auto.
  - destruct HC. split; auto.
  - destruct w; try contradiction. apply IH; auto.
Qed.
Lemma wq_get {A} N IM (I : st -> Prop) (p : prog A) (f : A -> prog string) Q (E : list call -> st -> Prop) log s : calmN N p -> dbonly p ->
  (forall s a, N a -> I s -> I (do_act a s)) -> (forall s, I s -> E log s) -> I s ->
  (forall a s', I s' -> wq IM (f a) Q E log s') -> wq IM (bind p f) Q E log s.
Proof.
  intros HC HD HN HE HI HF. apply wq_bind. unfold wq. eapply wp_conseq; [| |apply (wq_calm N IM I p E log HC HD HN HE s HI)]; auto.
  intros a log' s' [-> H]. apply HF; auto.
Qed.

(** * The tables *)
Notation qent := (nat * (nat * option (list cinfo)))%type.
Definition of_req (req : nat) (e : qent) : bool := eqb (fst (snd e)) req.
Definition ents (req : nat) (s : st) : list qent := filter (of_req req) (qcalls s).
Definition tokq (t : option nat) (req : nat) : nat := match t with Some q => one (eqb req q) | None => 0 end.
Record q1 (t : option nat) (log : list call) (s : st) : Prop := {
  q_keys : NoDup (akeys (qcalls s));
  q_low : forall e, In e (qcalls s) -> (fst e < n_corr s)%nat;
  q_rkeys : NoDup (akeys (qreqs s));
  q_sent : forall k, In k (query_corrs (outs s)) -> (k < n_corr s)%nat;
  q_cnt : forall req, (ocnt (m_query req) s + one (ahas req (qreqs s)) + tokq t req <= cnt (q_query req) log)%nat;
  q_none : forall req, cnt (q_query req) log = 0%nat -> ents req s = [];
  q_out : forall e, In e (qcalls s) -> In (fst e) (query_corrs (outs s)) }.

Lemma ocnt_out f s o : ocnt f (do_act (AOut o) s) = (ocnt f s + one (says f o))%nat.
Proof. unfold ocnt. replace (outs (do_act (AOut o) s)) with (outs s ++ [o]) by (destruct s; reflexivity). rewrite cnt_snoc. destruct (says f o); reflexivity. Qed.
Lemma ahas_aset {V} (k k' : nat) (v : V) d : ahas k (aset k' v d) = eqb k k' || ahas k d.
Proof. unfold ahas. rewrite aget_aset. destruct (eqb k k'); reflexivity. Qed.
Lemma ahas_adel_ne {V} (k k' : nat) (d : list (nat * V)) : k <> k' -> ahas k (adel k' d) = ahas k d.
Proof. intros H. unfold ahas. rewrite aget_adel_ne; auto. Qed.
Lemma ahas_adel_eq {V} (k : nat) (d : list (nat * V)) : NoDup (akeys d) -> ahas k (adel k d) = false.
Proof. intros H. unfold ahas. rewrite aget_adel_eq; auto. Qed.

Lemma ents_aset_same req k v v0 d : aget k d = Some v0 -> fst v = fst v0 ->
  map fst (filter (of_req req) (aset k v d)) = map fst (filter (of_req req) d).
Proof.
  intros H E. induction d as [|[k1 v1] d IH]; [discriminate|]. cbn in H |- *. destruct (eqb_ok k k1) as [->|N].
  - inversion H; subst. cbn. change (of_req req (k1, v)) with (eqb (fst v) req). change (of_req req (k1, v0)) with (eqb (fst v0) req).
    rewrite E. destruct (eqb (fst v0) req); reflexivity.
  - cbn. destruct (of_req req (k1, v1)); cbn; rewrite IH; auto.
Qed.
Lemma ents_aset_other req k v v0 d : aget k d = Some v0 -> fst v <> req -> fst v0 <> req ->
  filter (of_req req) (aset k v d) = filter (of_req req) d.
Proof.
  intros H N1 N2. induction d as [|[k1 v1] d IH]; [discriminate|]. cbn in H |- *. destruct (eqb_ok k k1) as [->|N].
  - inversion H; subst. cbn. change (of_req req (k1, v)) with (eqb (fst v) req). change (of_req req (k1, v0)) with (eqb (fst v0) req).
    rewrite (eqb_neq _ _ N1), (eqb_neq _ _ N2). reflexivity.
  - cbn. destruct (of_req req (k1, v1)); rewrite IH; auto.
Qed.
Lemma aset_new {V} (k : nat) (v : V) d : ~ In k (akeys d) -> aset k v d = d ++ [(k, v)].
Proof.
  induction d as [|[k1 v1] d IH]; cbn; auto. intros H. destruct (eqb_ok k k1) as [->|N]; [exfalso; auto|]. rewrite IH; auto.
Qed.
Lemma In_aset_inv {V} (k : nat) (v : V) d e : NoDup (akeys d) -> In e (aset k v d) -> e = (k, v) \/ (In e d /\ fst e <> k).
Proof.
  intros ND H. destruct e as [k1 v1]. pose proof (NoDup_akeys_aset k v d ND) as ND'.
  pose proof (In_aget _ _ _ ND' H) as G. rewrite aget_aset in G. destruct (eqb_ok k1 k) as [->|N]; [inversion G; auto|].
  right. split; auto. apply aget_In; auto.
Qed.
Lemma filter_pop req q (d : list qent) : req <> q ->
  filter (of_req req) (filter (fun e => negb (eqb (fst (snd e)) q)) d) = filter (of_req req) d.
Proof.
  intros N. induction d as [|e d IH]; cbn; auto. destruct (eqb_ok (fst (snd e)) q) as [E|NE]; cbn.
  - change (of_req req e) with (eqb (fst (snd e)) req). rewrite E, (eqb_neq q req) by auto. exact IH.
  - rewrite IH. reflexivity.
Qed.
Lemma filter_pop_eq q (d : list qent) : filter (of_req q) (filter (fun e => negb (eqb (fst (snd e)) q)) d) = [].
Proof.
  induction d as [|e d IH]; cbn; auto. destruct (eqb (fst (snd e)) q) eqn:E; cbn; auto. change (of_req q e) with (eqb (fst (snd e)) q). rewrite E. exact IH.
Qed.
Lemma NoDup_keys_filter {V} (f : nat * V -> bool) d : NoDup (akeys d) -> NoDup (akeys (filter f d)).
Proof.
  unfold akeys. induction d as [|e d IH]; cbn; auto. intros H. inversion H as [|x l H1 H2]; subst. destruct (f e); cbn; auto.
  constructor; auto. intros HI. apply H1. apply in_map_iff in HI. destruct HI as (y & <- & Hy). apply filter_In in Hy. apply in_map. tauto.
Qed.
Lemma sub_results_ents req s :
  sub_results req s = flat_map (fun e : qent => match snd (snd e) with Some (x :: _) => [x] | _ => [] end) (ents req s).
Proof.
  unfold sub_results, ents. induction (qcalls s) as [|e d IH]; cbn; auto. change (of_req req e) with (eqb (fst (snd e)) req).
  destruct (eqb (fst (snd e)) req); cbn; rewrite IH; destruct (snd (snd e)) as [[|]|]; reflexivity.
Qed.
Lemma results_length (l : list qent) :
  (List.length (flat_map (fun e : qent => match snd (snd e) with Some (x :: _) => [x] | _ => [] end) l) <= List.length l)%nat.
Proof. induction l as [|e l IH]; cbn; auto. destruct (snd (snd e)) as [[|]|]; cbn; lia. Qed.
Lemma results_full (P : nat -> cinfo -> Prop) (l : list qent) :
  (forall e x r, In e l -> snd (snd e) = Some (x :: r) -> P (fst e) x) ->
  (List.length l <= List.length (flat_map (fun e : qent => match snd (snd e) with Some (x :: _) => [x] | _ => [] end) l))%nat ->
  Forall2 P (map fst l) (flat_map (fun e : qent => match snd (snd e) with Some (x :: _) => [x] | _ => [] end) l).
Proof.
  induction l as [|e l IH]; cbn -[List.length]; intros H L; [constructor|].
  pose proof (results_length l) as B. destruct (snd (snd e)) as [[|x r]|] eqn:E; cbn in L |- *; try lia.
  constructor; [apply (H e x r); cbn; auto|]. apply IH; [|lia]. intros e' x' r' Hi. apply H. cbn; auto.
Qed.

Lemma q1_neutral t log s a : neutral a -> q1 t log s -> q1 t log (do_act a s).
Proof.
  intros N [H1 H2 H3 HS H4 H5 H6].
  assert (X : qcalls (do_act a s) = qcalls s /\ qreqs (do_act a s) = qreqs s /\ (n_corr s <= n_corr (do_act a s))%nat /\ query_corrs (outs (do_act a s)) = query_corrs (outs s) /\
              forall req, ocnt (m_query req) (do_act a s) = ocnt (m_query req) s).
  { destruct a; try contradiction; try (destruct s; cbn; repeat split; auto; lia).
    split; [destruct s; reflexivity|]. split; [destruct s; reflexivity|]. split; [destruct s; cbn; lia|]. split.
    { replace (outs (do_act (AOut x) s)) with (outs s ++ [x]) by (destruct s; reflexivity). unfold query_corrs. rewrite flat_map_app.
      rewrite <- (app_nil_r (flat_map _ (outs s))) at 2. f_equal. destruct x; auto. destruct b; try contradiction; reflexivity. }
    intros req. rewrite ocnt_out. destruct x; try (cbn; lia). match goal with b : ubody |- _ => destruct b; try contradiction; cbn; lia end. }
  destruct X as (X1 & X2 & X3 & X5 & X4). constructor; unfold ents; try rewrite X1; try rewrite X2; auto.
  - intros e He. specialize (H2 e He). lia.
  - rewrite X5. intros k Hk. specialize (HS k Hk). lia.
  - intros req. rewrite X4. apply H4.
  - rewrite X5. exact H6.
Qed.
Lemma q1_log t log s c : is_query c = false -> q1 t log s -> q1 t (log ++ [c]) s.
Proof.
  intros E [H1 H2 H3 HS H4 H5 H6]. assert (X : forall req, cnt (q_query req) (log ++ [c]) = cnt (q_query req) log).
  { intros req. rewrite cnt_snoc. destruct c; try discriminate; cbn; lia. }
  constructor; auto; intros req; rewrite X; auto.
Qed.
Lemma q1_top t log s reg rv : q1 t log s -> q1 t log (set_topology reg rv s).
Proof. intros [H1 H2 H3 HS H4 H5 H6]. constructor; auto. Qed.
Lemma q1_restart t log s reg rv : q1 t log s -> q1 t log (restart_st reg rv s).
Proof. intros [H1 H2 H3 HS H4 H5 H6]. constructor; try (cbn; auto; constructor); try (cbn; contradiction); auto.
  intros req. specialize (H4 req). change (ocnt (m_query req) (restart_st reg rv s)) with (ocnt (m_query req) s).
  change (one (ahas req (qreqs (restart_st reg rv s)))) with 0%nat. lia.
Qed.
Lemma q1_init t reg rv : t = None -> q1 t [] (init_st reg rv).
Proof. intros ->. constructor; cbn; auto; try constructor; try contradiction. Qed.
(** the acts of the two programs *)
Lemma q1_req log h cids gids req x s : req = hd_corr h -> q1 None log s -> q1 None (log ++ [CQueryRecursive h cids gids]) (do_act (AQreq req x) s).
Proof.
  intros -> [H1 H2 H3 HS H4 H5 H6].
  assert (X : forall req, cnt (q_query req) (log ++ [CQueryRecursive h cids gids]) = (cnt (q_query req) log + one (eqb (hd_corr h) req))%nat).
  { intros req. rewrite cnt_snoc. cbn. destruct (eqb (hd_corr h) req); reflexivity. }
  constructor; try (destruct s; cbn; auto; fail).
  - destruct s; cbn -[akeys] in *. apply NoDup_akeys_aset; auto.
  - intros req. rewrite X. specialize (H4 req). revert H4. destruct s; cbn. unfold ocnt; cbn. rewrite ahas_aset.
    destruct (eqb_ok req (hd_corr h)) as [->|N]; cbn.
    + rewrite eqb_refl. cbn. destruct (ahas _ _); cbn; lia.
    + destruct (ahas _ _); cbn; lia.
  - intros req. rewrite X. intros E. assert (E0 : cnt (q_query req) log = 0%nat) by lia. specialize (H5 req E0). destruct s; exact H5.
Qed.
Lemma q1_log_query log h cids gids s : q1 None log s -> q1 None (log ++ [CQueryRecursive h cids gids]) s.
Proof.
  intros [H1 H2 H3 HS H4 H5 H6]. constructor; auto; intros req; rewrite cnt_snoc; [specialize (H4 req); lia|].
  intros E. apply H5. lia.
Qed.
Definition ask (p : nat) (hd : header) (c : string) (req : nat) (s : st) : st :=
  do_act (AQcall (n_corr s) (req, None)) (do_act (AOut (ODown p hd (DQuery c))) (do_act ACorr s)).
Lemma q1_call_new t log p hd c req s : (0 < cnt (q_query req) log)%nat -> hd_corr hd = n_corr s -> q1 t log s ->
  q1 t log (ask p hd c req s) /\
  forall q, ents q (ask p hd c req s) = ents q s ++ (if eqb req q then [(n_corr s, (req, None))] else []).
Proof.
  intros HC HH [H1 H2 H3 HS H4 H5 H6].
  assert (F : ~ In (n_corr s) (akeys (qcalls s))).
  { intros HI. unfold akeys in HI. apply in_map_iff in HI. destruct HI as (e & Ee & He). specialize (H2 e He). lia. }
  assert (Q : qcalls (ask p hd c req s) = qcalls s ++ [(n_corr s, (req, None))]).
  { destruct s; cbn -[akeys] in *. apply aset_new; auto. }
  assert (EN : forall q, ents q (ask p hd c req s) = ents q s ++ (if eqb req q then [(n_corr s, (req, None))] else [])).
  { intros q. unfold ents. rewrite Q, filter_app. reflexivity. }
  assert (NC : n_corr (ask p hd c req s) = S (n_corr s)) by (destruct s; reflexivity).
  assert (OS : outs (ask p hd c req s) = outs s ++ [ODown p hd (DQuery c)]) by (destruct s; reflexivity).
  split; auto. constructor.
  - rewrite Q. unfold akeys in *. rewrite map_app. apply NoDup_snoc; auto.
  - rewrite Q, NC. intros e. rewrite in_app_iff. intros [He|[<-|[]]]; [specialize (H2 e He)|cbn]; lia.
  - destruct s; auto.
  - rewrite OS, NC. unfold query_corrs. rewrite flat_map_app. intros k. rewrite in_app_iff. intros [Hk|[<-|[]]]; [specialize (HS k Hk)|]; lia.
  - intros q. specialize (H4 q). replace (qreqs (ask p hd c req s)) with (qreqs s) by (destruct s; reflexivity).
    unfold ocnt in *. rewrite OS, cnt_snoc. cbn. lia.
  - intros q E. rewrite EN. rewrite (H5 q E). cbn. destruct (eqb_ok req q) as [->|N]; auto. lia.
  - rewrite Q, OS. unfold query_corrs in *. rewrite flat_map_app. intros e. rewrite !in_app_iff. intros [He|[<-|[]]]; [left; apply H6; auto|right; cbn; auto].
Qed.
Lemma q1_call_set t log k req v0 v s : aget k (qcalls s) = Some (req, v0) -> q1 t log s -> q1 t log (do_act (AQcall k (req, v)) s).
Proof.
  intros G [H1 H2 H3 HS H4 H5 H6]. constructor.
  - destruct s; cbn -[akeys] in *. apply NoDup_akeys_aset; auto.
  - assert (K : (k < n_corr s)%nat) by (apply aget_In in G; apply (H2 _ G)).
    intros e He. assert (He' : In e (aset k (req, v) (qcalls s))) by (destruct s; exact He).
    apply In_aset_inv in He'; auto. destruct He' as [->|[He' _]]; [|specialize (H2 e He')]; destruct s; cbn in *; lia.
  - destruct s; auto.
  - destruct s; exact HS.
  - intros q. specialize (H4 q). destruct s; exact H4.
  - intros q E. specialize (H5 q E). apply map_eq_nil with (f := fst).
    replace (ents q (do_act (AQcall k (req, v)) s)) with (filter (of_req q) (aset k (req, v) (qcalls s))) by (destruct s; reflexivity).
    rewrite (ents_aset_same q k (req, v) (req, v0)); auto. unfold ents in H5. rewrite H5. reflexivity.
  - intros e He. assert (He' : In e (aset k (req, v) (qcalls s))) by (destruct s; exact He).
    assert (X : In (fst e) (query_corrs (outs s))) by (apply In_aset_inv in He'; auto; destruct He' as [->|[He' _]]; [apply aget_In in G; apply (H6 _ G)|apply (H6 e He')]).
    destruct s; exact X.
Qed.
Lemma q1_pop log req x s : aget req (qreqs s) = Some x -> q1 None log s -> q1 (Some req) log (do_act (AQreqPop req) s).
Proof.
  intros G [H1 H2 H3 HS H4 H5 H6]. constructor; try (destruct s; auto; fail).
  - destruct s; cbn -[akeys] in *. apply NoDup_akeys_adel; auto.
  - intros q. specialize (H4 q). cbn [tokq] in *.
    replace (ocnt (m_query q) (do_act (AQreqPop req) s)) with (ocnt (m_query q) s) by (destruct s; reflexivity).
    replace (qreqs (do_act (AQreqPop req) s)) with (adel req (qreqs s)) by (destruct s; reflexivity).
    destruct (eqb_ok q req) as [->|N].
    + rewrite ahas_adel_eq by auto. unfold ahas in H4. rewrite G in H4. cbn in *. lia.
    + rewrite ahas_adel_ne by auto. cbn. lia.
Qed.
Lemma q1_callpop t log req s : q1 t log s -> q1 t log (do_act (AQcallPop req) s).
Proof.
  intros [H1 H2 H3 HS H4 H5 H6]. constructor; try (destruct s; auto; fail).
  - destruct s; cbn -[akeys] in *. apply NoDup_keys_filter; auto.
  - intros e He. assert (In e (qcalls s)) as Hi by (destruct s; cbn in *; apply filter_In in He; tauto). specialize (H2 e Hi). destruct s; exact H2.
  - intros q E. specialize (H5 q E).
    replace (ents q (do_act (AQcallPop req) s)) with (filter (of_req q) (filter (fun e => negb (eqb (fst (snd e)) req)) (qcalls s))) by (destruct s; reflexivity).
    destruct (Nat.eq_dec q req) as [->|N]; [apply filter_pop_eq|]. rewrite filter_pop by auto. exact H5.
  - intros e He. assert (In e (qcalls s)) as Hi by (destruct s; cbn in *; apply filter_In in He; tauto). specialize (H6 e Hi). destruct s; exact H6.
Qed.
Lemma q1_emit log req r x s : q1 (Some req) log s -> q1 None log (do_act (AOut (OUp r (UQueryRecursive req x))) s).
Proof.
  intros [H1 H2 H3 HS H4 H5 H6]. constructor; try (destruct s; auto; fail).
  - intros k Hk. assert (Hk2 : In k (query_corrs (outs s))).
    { destruct s; cbn in *. unfold query_corrs in *. rewrite flat_map_app, in_app_iff in Hk. destruct Hk as [Hk|[]]; auto. }
    specialize (HS k Hk2). destruct s; exact HS.
  - intros q. specialize (H4 q). rewrite ocnt_out. cbn in *.
    replace (qreqs (do_act (AOut (OUp r (UQueryRecursive req x))) s)) with (qreqs s) by (destruct s; reflexivity).
    destruct (eqb_ok q req) as [E|N]; [subst q; rewrite eqb_refl|rewrite (eqb_neq req q) by auto]; cbn in *; lia.
  - intros e He. assert (Hi : In (fst e) (query_corrs (outs s))) by (apply H6; destruct s; exact He).
    destruct s; cbn in *. unfold query_corrs in *. rewrite flat_map_app, in_app_iff. auto.
Qed.
Lemma q1_drop t log s : q1 t log s -> q1 None log s.
Proof. intros [H1 H2 H3 HS H4 H5 H6]. constructor; auto. intros req. specialize (H4 req). cbn in *. lia. Qed.

(** * What one query's answer is made of *)
Definition q2_body (req : nat) (ks : list nat) (log : list call) (s : st) : Prop :=
  (forall r x, In (OUp r (UQueryRecursive req x)) (outs s) -> exists i, x = [i] /\ Forall2 (answered_with log) ks (ci_children i)) /\
  (ents req s = [] \/
   map fst (ents req s) = ks /\
   (forall e x r, In e (ents req s) -> snd (snd e) = Some (x :: r) -> answered_with log (fst e) x) /\
   (forall r o n, aget req (qreqs s) = Some (r, o, n) -> (List.length ks <= n)%nat)).
Definition q2 (req : nat) (ks : list nat) (log : list call) (s : st) : Prop :=
  (0 < cnt (q_query req) log)%nat /\ (cnt (q_query req) log = 1%nat -> q2_body req ks log s).
Lemma Forall2_mono {A B} (P Q : A -> B -> Prop) l l' : (forall a b, P a b -> Q a b) -> Forall2 P l l' -> Forall2 Q l l'.
Proof. intros H F. induction F; constructor; auto. Qed.
Lemma answered_mono log c k x : answered_with log k x -> answered_with (log ++ [c]) k x.
Proof. intros (h & r & H & E). exists h, r. split; auto. apply in_or_app; auto. Qed.
Lemma q2_body_log req ks log s c : q2_body req ks log s -> q2_body req ks (log ++ [c]) s.
Proof.
  intros [H1 H2]. split.
  - intros r x H. destruct (H1 r x H) as (i & E & F). exists i. split; auto.
    eapply Forall2_mono; [|exact F]. intros k y. apply answered_mono.
  - destruct H2 as [H2|(A & B & C)]; [auto|right]. repeat split; auto. intros e x r He Hx. apply answered_mono. eapply B; eauto.
Qed.
Lemma q2_log req ks log s c : q2 req ks log s -> q2 req ks (log ++ [c]) s.
Proof.
  intros [H1 H2]. split; rewrite cnt_snoc; [lia|]. intros E. apply q2_body_log, H2. lia.
Qed.
Lemma q2_neutral req ks log s a : neutral a -> q2 req ks log s -> q2 req ks log (do_act a s).
Proof.
  intros N [H0 H]. split; auto. intros E. destruct (H E) as [H1 H2]. split.
  - intros r x Hx. apply (H1 r x). destruct a; try contradiction; try (destruct s; exact Hx).
    destruct s; cbn in *. apply in_app_iff in Hx. destruct Hx as [Hx|[Hx|[]]]; auto. rewrite Hx in N. contradiction.
  - destruct a; try contradiction; destruct s; exact H2.
Qed.
Lemma q2_top req ks log s reg rv : q2 req ks log s -> q2 req ks log (set_topology reg rv s).
Proof. exact (fun H => H). Qed.
Lemma q2_call_set t req ks log k q v0 res s : aget k (qcalls s) = Some (q, v0) -> (forall x r, res = x :: r -> answered_with log k x) ->
  q1 t log s -> q2 req ks log s -> q2 req ks log (do_act (AQcall k (q, Some res)) s).
Proof.
  intros G A [K1 _ _ _ _ _ _] [H0 H]. split; auto. intros E. destruct (H E) as [H1 H2].
  assert (EE : ents req (do_act (AQcall k (q, Some res)) s) = filter (of_req req) (aset k (q, Some res) (qcalls s))) by (destruct s; reflexivity).
  assert (EM : map fst (ents req (do_act (AQcall k (q, Some res)) s)) = map fst (ents req s)).
  { rewrite EE. apply (ents_aset_same req k (q, Some res) (q, v0)); auto. }
  split; [destruct s; exact H1|]. destruct H2 as [H2|(M & B & C)].
  - left. rewrite H2 in EM. apply map_eq_nil in EM. exact EM.
  - right. split; [congruence|]. split; [|destruct s; exact C].
    intros e x r He Hx. rewrite EE in He. apply filter_In in He. destruct He as [He Hq]. apply In_aset_inv in He; auto.
    destruct He as [->|[He _]].
    + cbn in Hx. inversion Hx; subst. cbn. eapply A; eauto.
    + eapply B; eauto. unfold ents. apply filter_In; auto.
Qed.
Lemma q2_pop t req ks log q s : q1 t log s -> q2 req ks log s -> q2 req ks log (do_act (AQreqPop q) s).
Proof.
  intros [_ _ K _ _ _ _] [H0 H]. split; auto. intros E. destruct (H E) as [H1 H2]. split; [destruct s; exact H1|].
  destruct H2 as [H2|(M & B & C)]; [left; destruct s; exact H2|]. right. split; [destruct s; exact M|]. split; [destruct s; exact B|].
  intros r o n. replace (qreqs (do_act (AQreqPop q) s)) with (adel q (qreqs s)) by (destruct s; reflexivity).
  destruct (Nat.eq_dec req q) as [->|N]; [rewrite aget_adel_eq by auto; discriminate|rewrite aget_adel_ne by auto; apply C].
Qed.
Lemma q2_callpop req ks log q s : q2 req ks log s -> q2 req ks log (do_act (AQcallPop q) s).
Proof.
  intros [H0 H]. split; auto. intros E. destruct (H E) as [H1 H2]. split; [destruct s; exact H1|].
  assert (EE : ents req (do_act (AQcallPop q) s) = filter (of_req req) (filter (fun e => negb (eqb (fst (snd e)) q)) (qcalls s))) by (destruct s; reflexivity).
  destruct (Nat.eq_dec req q) as [->|N]; [left; rewrite EE; apply filter_pop_eq|]. rewrite filter_pop in EE by auto.
  rewrite EE. destruct H2 as [H2|(M & B & C)]; [left; exact H2|]. right. split; [exact M|]. split; [exact B|destruct s; exact C].
Qed.
Lemma q2_emit req ks log q r i s : (q = req -> cnt (q_query req) log = 1%nat -> Forall2 (answered_with log) ks (ci_children i)) ->
  q2 req ks log s -> q2 req ks log (do_act (AOut (OUp r (UQueryRecursive q [i]))) s).
Proof.
  intros F [H0 H]. split; auto. intros E. destruct (H E) as [H1 H2]. split; [|destruct s; exact H2].
  intros r' x Hx. assert (Hx' : In (OUp r' (UQueryRecursive req x)) (outs s) \/ (q = req /\ x = [i])).
  { destruct s; cbn in *. apply in_app_iff in Hx. destruct Hx as [Hx|[Hx|[]]]; auto. inversion Hx; auto. }
  destruct Hx' as [Hx'|[Eq ->]]; eauto.
Qed.
Lemma q2_full t req ks log s r o n : q1 t log s -> q2 req ks log s -> cnt (q_query req) log = 1%nat ->
  (exists e, In e (ents req s)) -> aget req (qreqs s) = Some (r, o, n) -> List.length (sub_results req s) = n ->
  Forall2 (answered_with log) ks (sub_results req s).
Proof.
  intros K [_ H] E [e0 He0] G L. destruct (H E) as [_ [H2|(M & B & C)]]; [rewrite H2 in He0; contradiction|].
  specialize (C r o n G). rewrite sub_results_ents in L |- *. rewrite <- M. apply results_full; auto.
  rewrite L. apply (f_equal (@List.length nat)) in M. rewrite map_length in M. lia.
Qed.

(** an answer to query [k] has been taken *)
Definition done (k : nat) (s : st) : Prop :=
  (k < n_corr s)%nat /\ match aget k (qcalls s) with None | Some (_, Some (_ :: _)) => True | _ => False end.
Lemma done_neutral k s a : neutral a -> done k s -> done k (do_act a s).
Proof.
  intros N [H1 H2]. split.
  - destruct a; try contradiction; destruct s; cbn in *; lia.
  - destruct a; try contradiction; destruct s; exact H2.
Qed.
Lemma done_call_set t log k k' q v0 res s : aget k' (qcalls s) = Some (q, v0) -> (forall x r, v0 <> Some (x :: r)) -> q1 t log s ->
  done k s \/ (k' = k /\ res <> []) -> done k (do_act (AQcall k' (q, Some res)) s).
Proof.
  intros G NV H D. assert (K : (k' < n_corr s)%nat) by (apply aget_In in G; apply (q_low _ _ _ H) in G; exact G).
  assert (E : qcalls (do_act (AQcall k' (q, Some res)) s) = aset k' (q, Some res) (qcalls s)) by (destruct s; reflexivity).
  assert (E2 : n_corr (do_act (AQcall k' (q, Some res)) s) = n_corr s) by (destruct s; reflexivity).
  unfold done. rewrite E, E2, aget_aset. destruct D as [[D1 D2]|[<- D]].
  - split; auto. destruct (eqb_ok k k') as [->|N]; [|exact D2]. exfalso. rewrite G in D2. destruct v0 as [[|x r]|]; try contradiction. eapply NV; eauto.
  - split; auto. rewrite eqb_refl. destruct res; [congruence|exact I].
Qed.
Lemma done_reqpop k q s : done k s -> done k (do_act (AQreqPop q) s).
Proof. destruct s; exact (fun H => H). Qed.
Lemma done_req k q x s : done k s -> done k (do_act (AQreq q x) s).
Proof. destruct s; exact (fun H => H). Qed.
Lemma aget_filter (f : qent -> bool) k d : NoDup (akeys d) -> aget k (filter f d) = None \/ aget k (filter f d) = aget k d.
Proof.
  intros ND. destruct (aget k (filter f d)) as [v|] eqn:E; auto. right. apply aget_In in E. apply filter_In in E. symmetry. apply In_aget; tauto.
Qed.
Lemma done_callpop t log k q s : q1 t log s -> done k s -> done k (do_act (AQcallPop q) s).
Proof.
  intros H [D1 D2]. split; [destruct s; exact D1|].
  replace (qcalls (do_act (AQcallPop q) s)) with (filter (fun e : qent => negb (eqb (fst (snd e)) q)) (qcalls s)) by (destruct s; reflexivity).
  destruct (aget_filter (fun e : qent => negb (eqb (fst (snd e)) q)) k (qcalls s) (q_keys _ _ _ H)) as [-> | ->]; auto.
Qed.
Lemma done_emit k r req x s : done k s -> done k (do_act (AOut (OUp r (UQueryRecursive req x))) s).
Proof. destruct s; exact (fun H => H). Qed.
Lemma done_ask k p hd c req s : done k s -> done k (ask p hd c req s).
Proof.
  intros [D1 D2]. unfold done. replace (n_corr (ask p hd c req s)) with (S (n_corr s)) by (destruct s; reflexivity).
  replace (qcalls (ask p hd c req s)) with (aset (n_corr s) (req, None) (qcalls s)) by (destruct s; reflexivity).
  split; [lia|]. rewrite aget_aset_ne by lia. exact D2.
Qed.

(** * The answer of one provider *)
Definition J (d : option nat) (o : option (nat * list nat)) (t : option nat) (log : list call) (s : st) : Prop :=
  q1 t log s /\ match o with Some (req, ks) => q2 req ks log s | None => True end /\ match d with Some k => done k s | None => True end.
Lemma J_neutral d o t log s a : neutral a -> J d o t log s -> J d o t log (do_act a s).
Proof. intros N (H1 & H2 & H3). split; [apply q1_neutral; auto|]. split; [destruct o as [[req ks]|]; auto; apply q2_neutral; auto|destruct d; auto; apply done_neutral; auto]. Qed.
Lemma J_log d o t log s c : is_query c = false -> J d o t log s -> J d o t (log ++ [c]) s.
Proof. intros N (H1 & H2 & H3). split; [apply q1_log; auto|]. split; [destruct o as [[req ks]|]; auto; apply q2_log; auto|exact H3]. Qed.
Lemma J_top d o t log s reg rv : J d o t log s -> J d o t log (set_topology reg rv s).
Proof. intros (H1 & H2 & H3). split; [apply q1_top; auto|]. split; [destruct o as [[req ks]|]; auto|exact H3]. Qed.
Lemma J_restart d o t log s reg rv : J d o t log s -> J d o t log (restart_st reg rv s).
Proof.
  intros (H1 & H2 & H3). split; [apply q1_restart; auto|]. split.
  - destruct o as [[req ks]|]; auto. destruct H2 as [H2 H4]. split; auto. intros E. destruct (H4 E) as [H5 _]. split; [exact H5|left; reflexivity].
  - destruct d as [k|]; auto. destruct H3 as [H3 _]. split; [exact H3|exact I].
Qed.
Lemma J_drop d o t log s : J d o t log s -> J d o None log s.
Proof. intros [H1 H2]. split; auto. eapply q1_drop; eauto. Qed.
Notation JM d o := (J d o None).

Lemma wq_act {A} IM a (f : unit -> prog A) Q E log s : wq IM (f tt) Q E log (do_act a s) -> wq IM (bind (act1 a) f) Q E log s.
Proof. intros H. unfold wq. cbn. auto. Qed.
Lemma wq_state {A} IM (f : st -> prog A) Q E log s : wq IM (f s) Q E log s -> wq IM (bind get f) Q E log s.
Proof. intros H. exact H. Qed.
Lemma wq_conn {A} IM o (f : conn -> prog A) Q (E : list call -> st -> Prop) log s : E log s -> (forall c, wq IM (f c) Q E log s) -> wq IM (bind (conn_obj o) f) Q E log s.
Proof. intros HE H. unfold wq, conn_obj. cbn. destruct (aget o (h_conns s)); cbn; auto. apply H. Qed.
Lemma wq_lift {A B} IM (r : result A) (f : A -> prog B) Q (E : list call -> st -> Prop) log s : E log s -> (forall a, wq IM (f a) Q E log s) -> wq IM (bind (lift r) f) Q E log s.
Proof. intros HE H. destruct r; unfold wq; cbn; auto. apply H. Qed.
Lemma wq_answer d o g h res log s : J None o None log s -> match d with Some k => done k s \/ (hd_corr h = k /\ res <> [] /\ (k < n_corr s)%nat) | None => True end -> wq (JM d o) (query_recursive_confirmed g h res) (fun _ => JM d o) (JM d o) (log ++ [CQueryRecursiveConfirmed h res]) s.
Proof.
  set (log' := log ++ [CQueryRecursiveConfirmed h res]). intros HJ0 HD.
  assert (HJ : J None o None log' s).
  { destruct HJ0 as (H1 & H2 & _). split; [|split; [destruct o as [[req ks]|]; auto; apply q2_log; auto|exact I]].
    destruct H1 as [A1 A2 A3 AS A4 A5 A6].
    assert (X : forall req, cnt (q_query req) log' = cnt (q_query req) log) by (intros req; unfold log'; rewrite cnt_snoc; cbn; lia).
    constructor; auto; intros req; rewrite X; auto. }
  unfold query_recursive_confirmed. apply wq_state.
  assert (MAIN : forall req v0, aget (hd_corr h) (qcalls s) = Some (req, v0) -> (forall x r, v0 <> Some (x :: r)) ->
    wq (JM d o) (act1 (AQcall (hd_corr h) (req, Some res)) ;;;
      s <- get ;;
      match aget req (qreqs s) with
      | None => throw EKey
      | Some (requester, o, count) =>
          let scr := sub_results req s in
          if (List.length scr =? count)%nat then
            act1 (AQreqPop req) ;;;
            act1 (AQcallPop req) ;;;
            c <- conn_obj o ;;
            os <- get_subs (cn_key c) ;;
            xs <- sub_objs os ;;
            d <- lift (recursive_status xs) ;;
            n <- notification_id ;;
            c <- conn_obj o ;;
            up requester (UQueryRecursive req [conn_info g c d n n scr]) ;;;
            Ret ""
          else Ret ""
      end) (fun _ => JM d o) (JM d o) log' s).
  { intros req v0 G NV. apply wq_act. set (s1 := do_act _ s).
    assert (HJ1 : JM d o log' s1).
    { destruct HJ as (H1 & H2 & _). split; [eapply q1_call_set; eauto|]. split.
      - destruct o as [[rq ks]|]; auto. eapply q2_call_set; eauto. intros x r ->. exists h, r. split; auto. apply in_or_app; cbn; auto.
      - destruct d as [k|]; auto. eapply done_call_set; eauto. tauto. }
    assert (HE : exists e, In e (ents req s1)).
    { exists (hd_corr h, (req, Some res)). apply filter_In. split; [|unfold of_req; cbn; apply eqb_refl].
      apply aget_In. unfold s1. destruct s; cbn. apply aget_aset_eq. }
    clearbody s1. apply wq_state. destruct (aget req (qreqs s1)) as [[[requester oc] n]|] eqn:GQ; [|exact HJ1].
    cbv zeta. destruct (Nat.eqb_spec (List.length (sub_results req s1)) n) as [L|L]; [|exact HJ1].
    apply wq_act. set (s2 := do_act _ s1). apply wq_act. set (s3 := do_act _ s2).
    assert (HF : match o with Some (rq, ks) => req = rq -> cnt (q_query rq) log' = 1%nat -> Forall2 (answered_with log') ks (sub_results req s1) | None => True end).
    { destruct o as [[rq ks]|]; auto. intros <- E. destruct HJ1 as (H1 & H2 & _). eapply q2_full; eauto. }
    generalize dependent (sub_results req s1). intros scr L HF.
    assert (HJ3 : J d o (Some req) log' s3).
    { destruct HJ1 as (H1 & H2 & H3). split; [apply q1_callpop; eapply q1_pop; eauto|]. split.
      - destruct o as [[rq ks]|]; auto. apply q2_callpop. eapply q2_pop; eauto.
      - destruct d as [k|]; auto. eapply done_callpop; [eapply q1_pop; eauto|]. apply done_reqpop; auto. }
    clearbody s3. clear s2.
    assert (NP : forall x a, neutral a -> J d o (Some req) log' x -> J d o (Some req) log' (do_act a x)) by (intros; apply J_neutral; auto).
    apply wq_conn; [eapply J_drop; eauto|]. intros c.
    apply (wq_get neutral _ (J d o (Some req) log')); [apply mild_calm, calm_get_subs|apply db_get_subs|exact NP|intros; eapply J_drop; eauto|exact HJ3|]. intros os s4 HJ4.
    apply (wq_get neutral _ (J d o (Some req) log')); [apply mild_calm, calm_sub_objs|apply db_sub_objs|exact NP|intros; eapply J_drop; eauto|exact HJ4|]. intros xs s5 HJ5.
    apply wq_lift; [eapply J_drop; eauto|]. intros dd.
    apply (wq_get neutral _ (J d o (Some req) log')); [apply mild_calm, calm_note|apply db_note|exact NP|intros; eapply J_drop; eauto|exact HJ5|]. intros nn s6 HJ6.
    apply wq_conn; [eapply J_drop; eauto|]. intros c2.
    unfold up, out. apply wq_act. destruct HJ6 as (H1 & H2 & H3). split; [apply q1_emit; auto|]. split.
    - destruct o as [[rq ks]|]; auto. apply q2_emit; auto.
    - destruct d as [k|]; auto. apply done_emit; auto. }
  destruct (aget (hd_corr h) (qcalls s)) as [[req [[|x r]|]]|] eqn:G; try (eapply MAIN; eauto; discriminate).
  - destruct HJ as (H1 & H2 & _). split; auto. split; auto. destruct d as [k|]; auto. destruct HD as [HD|(<- & _ & L)]; auto. split; auto. rewrite G. exact I.
  - destruct HJ as (H1 & H2 & _). split; auto. split; auto. destruct d as [k|]; auto. destruct HD as [HD|(<- & _ & L)]; auto. split; auto. rewrite G. exact I.
Qed.

(** * The query *)
Section Query.
  Context (g : cfg) (h : header) (cids gids : list string) (log : list call).
  Let log' := log ++ [CQueryRecursive h cids gids].
  Let body (so : nat) : prog string :=
    x <- sub_obj so ;;
    s <- get ;;
    p <- lift (get_provider (s_network (sb_src x)) (a_reg s)) ;;
    k <- new_corr ;;
    out (ODown p (mkHeader (a_urn g) (sb_provider x) k (hd_sas h) None) (DQuery (sb_cid x))) ;;;
    act1 (AQcall k (hd_corr h, None)) ;;;
    Ret (sb_provider x).
  Lemma log'_pos : (0 < cnt (q_query (hd_corr h)) log')%nat.
  Proof. unfold log'. rewrite cnt_snoc. cbn. rewrite eqb_refl. lia. Qed.
  (** one round of the loop *)
  Definition asked_st (p : nat) (x : sub) (s : st) : st :=
    do_act (AQcall (n_corr s) (hd_corr h, None))
      (do_act (AOut (ODown p (mkHeader (a_urn g) (sb_provider x) (n_corr s) (hd_sas h) None) (DQuery (sb_cid x)))) (do_act ACorr s)).
  Lemma asked_ask p x s : asked_st p x s = ask p (mkHeader (a_urn g) (sb_provider x) (n_corr s) (hd_sas h) None) (sb_cid x) (hd_corr h) s.
  Proof. reflexivity. Qed.
  Lemma wq_loop IM (P : nat -> st -> Prop) (E : list call -> st -> Prop) n :
    (forall k s, (k < n)%nat -> P k s -> forall p x, P (S k) (asked_st p x s)) -> (forall k s, (k <= n)%nat -> P k s -> E log' s) ->
    forall os k s, (k + List.length os = n)%nat -> P k s -> wq IM (mapP body os) (fun _ l s' => l = log' /\ P n s') E log' s.
  Proof.
    intros HP HE. induction os as [|so os IH]; intros k s L H; cbn in L.
    - unfold wq. cbn. split; auto. replace n with k by lia. exact H.
    - cbn [mapP]. apply wq_bind. unfold body at 1. unfold wq, sub_obj, new_corr, out, act1, get. cbn [bind wp].
      destruct (aget so (h_subs s)) as [x|]; cbn [bind wp throw]; [|apply (HE k); auto; lia].
      destruct (get_provider _ (a_reg s)) as [p|e]; cbn [bind wp lift throw]; [|apply (HE k); auto; lia].
      do 6 (split; [exact I|]).
      assert (HA : P (S k) (asked_st p x s)) by (apply HP; auto; lia).
      apply wp_bind. eapply wp_conseq; [| |apply (IH (S k) (asked_st p x s)); [lia|exact HA]]; auto.
  Qed.

  Lemma q2_again rq ks s : hd_corr h = rq -> q2 rq ks log s -> forall s', q2 rq ks log' s'.
  Proof.
    intros <- [H _] s'. assert (X : (cnt (q_query (hd_corr h)) log' = S (cnt (q_query (hd_corr h)) log))%nat).
    { unfold log'. rewrite cnt_snoc. cbn. rewrite eqb_refl. lia. }
    split; [apply log'_pos|]. intros E. lia.
  Qed.
  Lemma q2_other req ks l q x s : req <> q -> q2 req ks l s -> q2 req ks l (do_act (AQreq q x) s).
  Proof.
    intros N [H0 H]. split; auto. intros E. destruct (H E) as [H1 H2]. split; [destruct s; exact H1|].
    destruct H2 as [H2|(M & B & C)]; [left; destruct s; exact H2|]. right. split; [destruct s; exact M|]. split; [destruct s; exact B|].
    intros r o n. replace (qreqs (do_act (AQreq q x) s)) with (aset q x (qreqs s)) by (destruct s; reflexivity).
    rewrite aget_aset_ne by auto. apply C.
  Qed.
  Lemma q2_same_ents req ks l s s' : outs s' = outs s -> qreqs s' = qreqs s -> ents req s' = ents req s -> q2 req ks l s -> q2 req ks l s'.
  Proof. intros E1 E2 E3 [H0 H]. split; auto. intros E. specialize (H E). unfold q2_body in *. rewrite E1, E2, E3. exact H. Qed.
  Lemma J_log_query d o s : JM d o log s -> JM d o log' s.
  Proof. intros (H1 & H2 & H3). split; [apply q1_log_query; auto|]. split; [destruct o as [[rq ks]|]; auto; apply q2_log; auto|exact H3]. Qed.
  Lemma J_asked d o p x s s0 : JM d o log s0 -> JM d o log' s -> JM d o log' (asked_st p x s).
  Proof.
    intros H0 (H1 & H2 & H3). rewrite asked_ask. set (hd := mkHeader _ _ _ _ _).
    destruct (q1_call_new None log' p hd (sb_cid x) (hd_corr h) s log'_pos eq_refl H1) as [K1 K2]. split; auto. split; [|destruct d; auto; apply done_ask; auto].
    destruct o as [[rq ks]|]; auto. destruct H0 as (_ & H0 & _).
    destruct (Nat.eq_dec (hd_corr h) rq) as [Er|Nr]; [eapply q2_again; eauto|].
    destruct H2 as [G0 G]. split; auto. intros E. destruct (G E) as [G1 G2]. split.
    - intros r y Hy. apply (G1 r y). assert (OS : outs (ask p hd (sb_cid x) (hd_corr h) s) = outs s ++ [ODown p hd (DQuery (sb_cid x))]) by (destruct s; reflexivity).
      rewrite OS, in_app_iff in Hy. destruct Hy as [Hy|[Hy|[]]]; auto. discriminate.
    - rewrite K2. rewrite (eqb_neq (hd_corr h) rq) by auto. rewrite app_nil_r. destruct s; exact G2.
  Qed.
  Lemma wq_query d o s cids' gids' : JM d o log s -> wq (JM d o) (query_recursive g h cids' gids') (fun _ => JM d o) (JM d o) log' s.
  Proof.
    intros HJ. unfold query_recursive. destruct gids' as [|]; [|apply J_log_query; auto].
    destruct cids' as [|cid [|]]; try (apply J_log_query; auto; fail).
    assert (NP : forall x a, neutral a -> JM d o log x -> JM d o log (do_act a x)) by (intros; apply J_neutral; auto).
    apply (wq_get neutral _ (JM d o log)); [apply mild_calm, calm_get_connection|apply db_get_connection|exact NP|apply J_log_query|exact HJ|]. intros oc s1 HJ1.
    apply wq_conn; [apply J_log_query; auto|]. intros c.
    apply (wq_get neutral _ (JM d o log)); [apply mild_calm, calm_get_subs|apply db_get_subs|exact NP|apply J_log_query|exact HJ1|]. intros os s2 HJ2.
    apply wq_act. set (s3 := do_act _ s2).
    assert (HJ3 : JM d o log' s3).
    { destruct HJ2 as (H1 & H2 & H3). split; [apply q1_req; auto|]. split; [|destruct d; auto; apply done_req; auto]. destruct o as [[rq ks]|]; auto.
      destruct (Nat.eq_dec (hd_corr h) rq) as [Er|Nr]; [eapply q2_again; eauto|]. apply q2_other; auto. apply q2_log; auto. }
    clearbody s3. apply wq_bind. unfold wq at 1.
    eapply wp_conseq; [| |apply (wq_loop (JM d o) (fun _ => JM d o log') (JM d o) (List.length os)) with (k := 0%nat)]; auto.
    - intros urns l s4 [-> HJ4]. unfold wq, await_acks. cbn. split; auto.
      intros l' s5 a _ HJ5 _. destruct a; cbn; auto. destruct (all_acked l); cbn; auto.
    - intros k x Hk Hx p y. eapply J_asked; eauto.
  Qed.

  (** the first query with this correlation id *)
  Definition Xq (os0 : list output) (N : nat) (k : nat) (s : st) : Prop :=
    q1 None log' s /\ ocnt (m_query (hd_corr h)) s = 0%nat /\ (exists r o, aget (hd_corr h) (qreqs s) = Some (r, o, N)) /\
    (forall e, In e (ents (hd_corr h) s) -> snd (snd e) = None) /\
    exists mid, outs s = os0 ++ mid /\ map fst (ents (hd_corr h) s) = query_corrs mid /\ List.length (query_corrs mid) = k.
  Definition Yq (os0 : list output) (s : st) : Prop :=
    exists mid, outs s = os0 ++ mid /\ q2 (hd_corr h) (query_corrs mid) log' s.
  Lemma ocnt_0 (P : Prop) q r x s : ocnt (m_query q) s = 0%nat -> In (OUp r (UQueryRecursive q x)) (outs s) -> P.
  Proof.
    unfold ocnt, cnt. intros H HI. assert (HF : In (OUp r (UQueryRecursive q x)) (filter (says (m_query q)) (outs s))).
    { apply filter_In. split; auto. cbn. apply eqb_refl. }
    destruct (filter _ _); [contradiction|discriminate].
  Qed.
  Lemma Xq_Yq os0 N k s : (k <= N)%nat -> Xq os0 N k s -> Yq os0 s.
  Proof.
    intros L (H1 & H2 & (r & o & H3) & H4 & mid & E & M & K). exists mid. split; auto. split; [apply log'_pos|]. intros _. split.
    - intros r' x. apply ocnt_0; auto.
    - right. split; auto. split.
      + intros e x r' He Hx. rewrite (H4 e He) in Hx. discriminate.
      + intros r' o' n Hn. rewrite H3 in Hn. inversion Hn; subst. lia.
  Qed.
  Lemma Xq_asked os0 N k p x s : Xq os0 N k s -> Xq os0 N (S k) (asked_st p x s).
  Proof.
    intros (H1 & H2 & (r & o & H3) & H4 & mid & E & M & K). rewrite asked_ask. set (hd := mkHeader _ _ _ _ _).
    destruct (q1_call_new None log' p hd (sb_cid x) (hd_corr h) s log'_pos eq_refl H1) as [K1 K2].
    assert (OS : outs (ask p hd (sb_cid x) (hd_corr h) s) = outs s ++ [ODown p hd (DQuery (sb_cid x))]) by (destruct s; reflexivity).
    split; auto. split; [|split; [|split]].
    - unfold ocnt in *. rewrite OS, cnt_snoc, H2. reflexivity.
    - exists r, o. destruct s; exact H3.
    - intros e. rewrite K2, eqb_refl, in_app_iff. intros [He|[<-|[]]]; auto.
    - exists (mid ++ [ODown p hd (DQuery (sb_cid x))]). split; [|split].
      + rewrite OS, E, app_assoc. reflexivity.
      + rewrite K2, eqb_refl, map_app, M. unfold query_corrs. rewrite flat_map_app. reflexivity.
      + unfold query_corrs in *. rewrite flat_map_app, app_length, K. cbn. lia.
  Qed.
  Lemma wq_first s cids' gids' : q1 None log s -> cnt (q_query (hd_corr h)) log = 0%nat ->
    wq (fun _ => Yq (outs s)) (query_recursive g h cids' gids') (fun _ _ => Yq (outs s)) (fun _ => Yq (outs s)) log' s.
  Proof.
    intros H HC. set (os0 := outs s).
    set (Z := fun x : st => outs x = os0 /\ q1 None log x).
    assert (ZY : forall x, Z x -> Yq os0 x).
    { intros x [E HQ]. exists []. split; [rewrite app_nil_r; auto|]. split; [apply log'_pos|]. intros _. split; [|left; apply HQ; auto].
      intros r y. apply ocnt_0. destruct HQ as [_ _ _ _ A4 _ _]. specialize (A4 (hd_corr h)). lia. }
    assert (NP : forall x a, quiet a -> Z x -> Z (do_act a x)).
    { intros x a Q [E HQ]. split; [|apply q1_neutral; auto; apply quiet_neutral; auto].
      destruct a; try contradiction; destruct x; exact E. }
    assert (Z0 : Z s) by (split; auto; reflexivity).
    clearbody os0. unfold query_recursive. destruct gids' as [|]; [|apply ZY; auto].
    destruct cids' as [|cid [|]]; try (apply ZY; auto; fail).
    apply (wq_get quiet _ Z); [apply still_get_connection|apply db_get_connection|exact NP|exact ZY|exact Z0|]. intros oc s1 Z1.
    apply wq_conn; [apply ZY; auto|]. intros c.
    apply (wq_get quiet _ Z); [apply still_get_subs|apply db_get_subs|exact NP|exact ZY|exact Z1|]. intros os s2 Z2.
    apply wq_act. set (s3 := do_act _ s2).
    assert (X3 : Xq os0 (List.length os) 0 s3).
    { destruct Z2 as [E HQ]. split; [apply q1_req; auto|]. split; [|split; [|split]].
      - destruct HQ as [_ _ _ _ A4 _ _]. specialize (A4 (hd_corr h)). assert (X : ocnt (m_query (hd_corr h)) s2 = 0%nat) by lia. unfold s3. destruct s2; exact X.
      - exists (hd_requester h), oc. unfold s3. destruct s2; cbn. apply aget_aset_eq.
      - assert (X : ents (hd_corr h) s3 = []) by (unfold s3; assert (X := q_none _ _ _ HQ _ HC); destruct s2; exact X). rewrite X. contradiction.
      - exists []. assert (X : ents (hd_corr h) s3 = []) by (unfold s3; assert (X := q_none _ _ _ HQ _ HC); destruct s2; exact X). rewrite X.
        rewrite app_nil_r. split; [unfold s3; destruct s2; exact E|]. auto. }
    clearbody s3. apply wq_bind. unfold wq at 1.
    eapply wp_conseq; [| |apply (wq_loop (fun _ => Yq os0) (Xq os0 (List.length os)) (fun _ => Yq os0) (List.length os)) with (k := 0%nat)]; auto.
    - intros urns l s4 [-> HX]. unfold wq, await_acks. cbn. split; [eapply Xq_Yq; eauto|].
      intros l' s5 a _ HJ5 _. destruct a; cbn; auto. destruct (all_acked l); cbn; auto.
    - intros k x Hk Hx p y. apply Xq_asked; auto.
    - intros k x Hk Hx. eapply Xq_Yq; eauto.
  Qed.
End Query.

Lemma J_call d o g c log s : is_query c = true -> JM d o log s -> JM d o (log ++ [c]) (snd (advance true (call_prog g c) s)).
Proof.
  intros Q H. destruct c; try discriminate; cbn [call_prog].
  - apply (wp_advance (JM d o) any yes (fun _ => I) (fun _ _ _ _ _ => I) (query_recursive g h cids gids) _ _ (wq_query g h cids gids log d o s cids gids H)).
  - refine (proj1 (proj2 (wp_advance (JM d o) any yes (fun _ => I) (fun _ _ _ _ _ => I) (query_recursive_confirmed g h res) _ _ (wq_answer d o g h res log s _ _)))).
    + destruct H as (H1 & H2 & _). repeat split; auto; apply H1.
    + destruct H as (_ & _ & H). destruct d; auto.
Qed.
Lemma J_run d o g l m : mfresh m -> tasks_calm m -> JM d o (m_log m) (m_st m) ->
  JM d o (m_log (mrun g true m l)) (m_st (mrun g true m l)) /\ mfresh (mrun g true m l) /\ tasks_calm (mrun g true m l).
Proof.
  apply q_run; auto.
  - intros; apply J_neutral; auto.
  - intros; apply J_log; auto.
  - intros; apply J_top; auto.
  - intros; apply J_restart; auto.
  - intros; apply J_call; auto.
Qed.
Lemma J_reach g reg rv l : JM None None (m_log (mrun g true (minit reg rv) l)) (m_st (mrun g true (minit reg rv) l)) /\
  mfresh (mrun g true (minit reg rv) l) /\ tasks_calm (mrun g true (minit reg rv) l).
Proof.
  apply J_run.
  - split; [constructor|contradiction].
  - intros i w k E. discriminate.
  - split; auto. apply q1_init; auto.
Qed.

(** the theorems *)
Lemma query_once g reg rv l req : (sent (m_query req) (mrun g true (minit reg rv) l) <= received (q_query req) (mrun g true (minit reg rv) l))%nat.
Proof. destruct (J_reach g reg rv l) as [[H _] _]. pose proof (q_cnt _ _ _ H req) as C. cbn in C. unfold sent, received, ocnt in *. lia. Qed.
Lemma query_answer g reg rv l1 h cids gids l2 :
  let m1 := mrun g true (minit reg rv) l1 in
  let m2 := mstep g true m1 (EvCall (CQueryRecursive h cids gids)) in
  let m3 := mrun g true m2 l2 in
  received (q_query (hd_corr h)) m3 = 1%nat -> forall r x, In (OUp r (UQueryRecursive (hd_corr h) x)) (outs (m_st m3)) ->
  exists mid i, outs (m_st m2) = outs (m_st m1) ++ mid /\ x = [i] /\ Forall2 (answered_with (m_log m3)) (query_corrs mid) (ci_children i).
Proof.
  intros m1 m2 m3 HR r x HI. destruct (J_reach g reg rv l1) as [[H _] [HF HT]]. fold m1 in H, HF, HT.
  assert (LOGS : forall l m, exists l', m_log (mrun g true m l) = m_log m ++ l').
  { induction l as [|e l IH]; intros m; [exists []; cbn; rewrite app_nil_r; auto|]. cbn [mrun fold_left]. destruct (IH (mstep g true m e)) as [l' E].
    unfold mrun in E. rewrite E. destruct e as [c|i a|rg v|rg v]; cbn [mstep].
    - rewrite (proj2 (record_st _ _ _)). cbn. rewrite <- app_assoc. eauto.
    - destruct (aget i (m_tasks m)) as [[w k]|]; eauto. destruct (answers w a); eauto. rewrite (proj2 (record_st _ _ _)). cbn. eauto.
    - cbn. eauto.
    - cbn. eauto. }
  assert (L2 : m_log m2 = m_log m1 ++ [CQueryRecursive h cids gids]) by (unfold m2; cbn [mstep]; rewrite (proj2 (record_st _ _ _)); reflexivity).
  assert (S2 : m_st m2 = snd (advance true (query_recursive g h cids gids) (m_st m1))) by (unfold m2; cbn [mstep]; rewrite (proj1 (record_st _ _ _)); reflexivity).
  assert (HC : cnt (q_query (hd_corr h)) (m_log m1) = 0%nat).
  { destruct (LOGS l2 m2) as [l' E]. fold m3 in E. unfold received in HR. rewrite E, L2 in HR. unfold cnt in *.
    rewrite !filter_app, !app_length in HR. cbn in HR. rewrite eqb_refl in HR. cbn in HR. lia. }
  pose proof (wq_first g h cids gids (m_log m1) (m_st m1) cids gids H HC) as W.
  apply wp_advance in W; auto. destruct W as (_ & (mid & E & HQ2) & _). rewrite <- S2 in E, HQ2. rewrite <- L2 in HQ2.
  destruct (J_run None (Some (hd_corr h, query_corrs mid)) g l2 m2) as [(_ & [_ H3] & _) _].
  - apply mstep_fresh; auto.
  - apply mstep_tasks; auto.
  - split; [|split; auto]. rewrite L2, S2. apply (proj1 (J_call None None g (CQueryRecursive h cids gids) (m_log m1) (m_st m1) eq_refl (conj H (conj I I)))).
  - fold m3 in H3. destruct (H3 HR) as [B _]. destruct (B r x HI) as (i & -> & F). exists mid, i. auto.
Qed.
(** answers nobody asked for, and second answers *)
Lemma query_unknown g reg rv l h res : ~ In (hd_corr h) (query_corrs (outs (m_st (mrun g true (minit reg rv) l)))) ->
  m_st (mstep g true (mrun g true (minit reg rv) l) (EvCall (CQueryRecursiveConfirmed h res))) = m_st (mrun g true (minit reg rv) l).
Proof.
  intros N. destruct (J_reach g reg rv l) as [(H & _ & _) _].
  cbn [mstep]. rewrite (proj1 (record_st _ _ _)). cbn [call_prog]. unfold query_recursive_confirmed, get. cbn [bind advance].
  destruct (aget (hd_corr h) (qcalls (m_st (mrun g true (minit reg rv) l)))) as [v|] eqn:E; [|reflexivity].
  exfalso. apply N. apply aget_In in E. apply (q_out _ _ _ H) in E. exact E.
Qed.
Lemma query_twice g reg rv l1 h x r h' res l2 :
  let m1 := mrun g true (minit reg rv) l1 in
  let m2 := mrun g true (mstep g true m1 (EvCall (CQueryRecursiveConfirmed h (x :: r)))) l2 in
  In (hd_corr h) (query_corrs (outs (m_st m1))) -> hd_corr h' = hd_corr h ->
  m_st (mstep g true m2 (EvCall (CQueryRecursiveConfirmed h' res))) = m_st m2.
Proof.
  intros m1 m2 HI HE. destruct (J_reach g reg rv l1) as [(H & _ & _) [HF HT]]. fold m1 in H, HF, HT.
  set (m' := mstep g true m1 (EvCall (CQueryRecursiveConfirmed h (x :: r)))) in *.
  assert (L2 : m_log m' = m_log m1 ++ [CQueryRecursiveConfirmed h (x :: r)]) by (unfold m'; cbn [mstep]; rewrite (proj2 (record_st _ _ _)); reflexivity).
  assert (S2 : m_st m' = snd (advance true (query_recursive_confirmed g h (x :: r)) (m_st m1))) by (unfold m'; cbn [mstep]; rewrite (proj1 (record_st _ _ _)); reflexivity).
  destruct (J_run (Some (hd_corr h)) None g l2 m') as [(_ & _ & D) _].
  - apply mstep_fresh; auto.
  - apply mstep_tasks; auto.
  - rewrite L2, S2. refine (proj1 (proj2 (wp_advance (JM (Some (hd_corr h)) None) any yes (fun _ => I) (fun _ _ _ _ _ => I) _ _ _ (wq_answer (Some (hd_corr h)) None g h (x :: r) (m_log m1) (m_st m1) _ _)))).
    + split; auto.
    + right. split; auto. split; [discriminate|]. apply (q_sent _ _ _ H); auto.
  - fold m2 in D. destruct D as [_ D]. cbn [mstep]. rewrite (proj1 (record_st _ _ _)). cbn [call_prog]. unfold query_recursive_confirmed, get. cbn [bind advance].
    rewrite HE. destruct (aget (hd_corr h) (qcalls (m_st m2))) as [[q [[|y z]|]]|]; try contradiction; reflexivity.
Qed.
