(** C103: someone who asks for connections sees them all, and can tell them apart. *)
From Verif Require Import Base BaseProofs ModelXml ModelSTP ModelLabel ModelTime ModelQueryHelper PropsQueryHelper ModelAuthz ModelCliShow SpecCliShow ProofsCliShow.
Open Scope Z_scope.

(** An answer is shown as the blocks of its connections, each followed by those it is made
    of, two columns further in, and nothing else. *)
Theorem C103_shown : forall l, l <> [] ->
  exists ws bs, walk 0 l ws /\ Forall2 (fun w b => block (fst w) (snd w) b) ws bs /\ query_lines l = ["Query results:"] ++ concat bs ++ [""].
Proof.
  intros l N. destruct (laid_all l) as (ws & bs & W & F & E). exists ws, bs. split; [exact W|split; [exact F|]].
  destruct l as [|c l]; [contradiction|]. cbn [query_lines]. f_equal. f_equal. exact E.
Qed.
Print Assumptions C103_shown.

(** Every connection is shown, as far in as it is deep.  Missing from the full statement:
    connections below other than the first criteria (see C103_later_refuted). *)
Theorem C103_every_partial : forall l c n x, In c l -> below n c x ->
  exists pre b post, block n x b /\ query_lines l = pre ++ b ++ post.
Proof.
  intros l c n x Hin B. assert (l <> []) as N by (intros ->; destruct Hin).
  destruct (C103_shown l N) as (ws & bs & W & F & E). pose proof (walk_has _ _ _ W n c x Hin B) as Hw. cbn [Nat.add] in Hw.
  destruct (forall2_in _ _ _ F _ Hw) as (b & Hb & R). destruct (concat_in bs b Hb) as (pre & post & Ec).
  exists (["Query results:"] ++ pre), b, (post ++ [""]). split; [exact R|]. rewrite E, Ec. repeat rewrite <- app_assoc. reflexivity.
Qed.
Print Assumptions C103_every_partial.

(** Only connections of the answer are shown: what is walked through is below one of them. *)
Theorem C103_only : forall l ws n x, walk 0 l ws -> In (n, x) ws -> exists c, In c l /\ below n c x.
Proof. intros l ws n x W Hin. destruct (walk_only _ _ _ W n x Hin) as (m & c & -> & Hc & B). exists c. split; assumption. Qed.
Print Assumptions C103_only.

(** Every line gets to the terminal, whatever the connections and providers are called. *)
Theorem C103_terminal : forall l, terminal (query_lines l) = fold_right (fun t r => t +++ String "010" r) "" (query_lines l).
Proof. intros l. apply terminal_all. apply lines_open. Qed.
Print Assumptions C103_terminal.

(** Two answers that look the same have the same connections of the same providers in the
    same states, made of each other in the same way. *)
Theorem C103_apart : forall l l' ws ws', walk 0 l ws -> walk 0 l' ws' -> Forall (fun w => plain (snd w)) ws -> Forall (fun w => plain (snd w)) ws' ->
  query_lines l = query_lines l' -> Forall2 (fun a b => fst a = fst b /\ agree (snd a) (snd b)) ws ws'.
Proof.
  intros l l' ws ws' W W' P P' E.
  assert (forall l ws, walk 0 l ws -> forall vs, walk 0 l vs -> vs = ws) as U.
  { clear. intros l ws W. induction W as [d|d c kids r a b M Wa IHa Wb IHb]; intros vs V; inversion V; subst; [reflexivity|].
    match goal with X : made_of c ?k |- _ => lazymatch k with kids => fail | _ => pose proof (made_kids _ _ X) as E1 end end.
    pose proof (made_kids _ _ M) as E2. subst. f_equal. f_equal; [apply IHa|apply IHb]; assumption. }
  destruct l as [|c l], l' as [|c' l'].
  - inversion W; inversion W'; subst. constructor.
  - discriminate.
  - discriminate.
  - destruct (C103_shown (c :: l) ltac:(discriminate)) as (vs & bs & V & F & El). destruct (C103_shown (c' :: l') ltac:(discriminate)) as (vs' & bs' & V' & F' & El').
    rewrite (U _ _ W _ V) in F. rewrite (U _ _ W' _ V') in F'. rewrite El, El' in E. injection E as E. apply app_inv_tail in E.
    apply (shown_same _ _ _ _ _ _ W W' F F' P P'). apply concat_blocks; [apply (forall2_blocks _ _ F)|apply (forall2_blocks _ _ F')|exact E].
Qed.
Print Assumptions C103_apart.

(** No answer is taken for none. *)
Theorem C103_none : forall l, In "No results from query" (query_lines l) -> l = [].
Proof.
  intros l Hin. destruct l as [|c l]; [reflexivity|]. exfalso.
  destruct (C103_shown (c :: l) ltac:(discriminate)) as (ws & bs & W & F & E). rewrite E in Hin. cbn [app] in Hin.
  destruct Hin as [X|Hin]; [discriminate|]. apply in_app_or in Hin. destruct Hin as [Hin|[X|[]]]; [|discriminate].
  clear - F Hin. induction F as [|w b ws bs Hb F IH]; [destruct Hin|]. cbn [concat] in Hin. apply in_app_or in Hin. destruct Hin as [Hin|Hin]; [|exact (IH Hin)].
  revert Hin. apply (block_names _ _ _ Hb).
Qed.
Print Assumptions C103_none.

(** Connections below other than the first criteria are not shown. *)
Theorem C103_later_refuted :
  ~ (forall cid gid desc ty crits prov req s nid rid rev sc sd kids k, In (QC rev sc sd kids) crits -> In k kids ->
       exists pre b post, block 1 k b /\ query_lines [CI cid gid desc ty crits prov req s nid rid] = pre ++ b ++ post).
Proof.
  intros A. destruct (A "c1" None None EVTS_AGOLE [QC 0 ex_sched ex_sd []; QC 1 ex_sched ex_sd [ex_child "x" []]] "us" None ex_states None None 1 ex_sched ex_sd [ex_child "x" []] (ex_child "x" []))
    as (pre & b & post & B & E); [cbn; auto..|].
  assert (In "  Connection   x (urn:ogf:network:b.net:nsa)" (pre ++ b ++ post)) as Hin.
  { apply in_or_app. right. apply in_or_app. left. inversion B; subst. right. left. reflexivity. }
  rewrite <- E in Hin. revert Hin. vm_compute. intros Hin. repeat (destruct Hin as [X|Hin]; [discriminate|]). exact Hin.
Qed.
Print Assumptions C103_later_refuted.

(** An answer of two levels, and what is seen of it. *)
Definition seen_answer : list cinfo := [ex_top [ex_child "x" [ex_child "z" []]; ex_child "y" []]].
Example C103_ex :
  query_lines seen_answer =
  ["Query results:";
   "";
   "Connection   conn-1 (us)";
   "Global ID    gid";
   "States       ReserveStart, Provisioned, Created";
   "Dataplane    Active : True, Version: 3, Consistent True";
   "Start-End    2024-02-29 12:00:00 - None";
   "Path         a.net:p1?vlan=1780 -- a.net:p2?vlan=1780";
   "Bandwidth    100";
   "Direction    Bidirectional";
   "";
   "  Connection   x (urn:ogf:network:b.net:nsa)";
   "  States       ReserveStart, Provisioned, Created";
   "  Dataplane    Active : True, Version: 3, Consistent True";
   "  Path         a.net:p1?vlan=1780 -- a.net:p2?vlan=1780";
   "";
   "    Connection   z (urn:ogf:network:b.net:nsa)";
   "    States       ReserveStart, Provisioned, Created";
   "    Dataplane    Active : True, Version: 3, Consistent True";
   "    Path         a.net:p1?vlan=1780 -- a.net:p2?vlan=1780";
   "";
   "  Connection   y (urn:ogf:network:b.net:nsa)";
   "  States       ReserveStart, Provisioned, Created";
   "  Dataplane    Active : True, Version: 3, Consistent True";
   "  Path         a.net:p1?vlan=1780 -- a.net:p2?vlan=1780";
   ""] /\
  below 2 (ex_top [ex_child "x" [ex_child "z" []]; ex_child "y" []]) (ex_child "z" []) /\
  exists ws, walk 0 seen_answer ws /\ map fst ws = [0; 1; 2; 1]%nat /\ Forall (fun w => plain (snd w)) ws.
Proof.
  split; [vm_compute; reflexivity|split].
  - eapply below_kid; [apply made_of_first|left; reflexivity|]. eapply below_kid; [apply made_of_first|left; reflexivity|]. constructor.
  - eexists. split; [|split].
    + unfold seen_answer. eapply walk_cons; [apply made_of_first| |apply walk_nil]. eapply walk_cons; [apply made_of_first| |].
      * eapply walk_cons; [apply made_of_first|apply walk_nil..].
      * eapply walk_cons; [apply made_of_first|apply walk_nil..].
    + reflexivity.
    + cbn [app]. repeat (constructor; [repeat split; reflexivity|]). constructor.
Qed.
(** What the observer does hide. *)
Example C103_terminal_ex : terminal ["Log opened."; "States"; "Main loop terminated."] = "States" +++ String "010" "" /\
  terminal ["Starting factory <twisted.web.server.Site instance at 0x1>"] = "".
Proof. split; reflexivity. Qed.
