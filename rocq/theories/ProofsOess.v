(** Proofs for C83: circuits of an OESS controller. *)
From Verif Require Import Base BaseProofs ModelLabel ModelRest ModelDrivers SpecDrivers ModelOess SpecOess ProofsDrivers.
Open Scope Z_scope.

(** ** Queries *)
Definition amp (l : list (string * string)) : string := fold_right (fun kv t => "&" +++ fst kv +++ "=" +++ snd kv +++ t) "" l.
Lemma amp_app l l' : amp (l ++ l') = amp l +++ amp l'.
Proof. induction l as [|kv l IH]; [reflexivity|]. cbn [app amp fold_right]. fold (amp (l ++ l')). fold (amp l). rewrite IH, !append_assoc. reflexivity. Qed.
Definition kv_ok (kv : string * string) : Prop := shas "&" (fst kv) = false /\ shas "=" (fst kv) = false /\ shas "&" (snd kv) = false.
Lemma split_amp x : shas "&" x = false -> forall l, (forall kv, In kv l -> kv_ok kv) ->
  split_on "&" (x +++ amp l) = x :: map (fun kv => fst kv +++ "=" +++ snd kv) l.
Proof.
  intros Hx l. revert x Hx. induction l as [|kv l IH]; intros x Hx Hl; cbn [amp fold_right map].
  - rewrite append_nil_r. apply split_on_none. exact Hx.
  - fold (amp l). change ("&" +++ fst kv +++ "=" +++ snd kv +++ amp l) with (String "&" (fst kv +++ "=" +++ snd kv +++ amp l)).
    rewrite split_on_app by exact Hx. f_equal. rewrite <- !append_assoc. destruct (Hl kv (or_introl eq_refl)) as (H1 & H2 & H3).
    rewrite IH; [rewrite !append_assoc; reflexivity| |intros y Hy; apply Hl; right; exact Hy].
    rewrite !shas_app, H1, H3. reflexivity.
Qed.
Lemma fields_amp path k v l : shas "?" path = false -> kv_ok (k, v) -> (forall kv, In kv l -> kv_ok kv) ->
  fields (path +++ "?" +++ k +++ "=" +++ v +++ amp l) = (k, v) :: l.
Proof.
  intros Hp (K1 & K2 & K3) Hl. unfold fields. change ("?" +++ k +++ "=" +++ v +++ amp l) with (String "?" (k +++ "=" +++ v +++ amp l)).
  rewrite split1_app by exact Hp. rewrite <- !append_assoc. rewrite split_amp; [|rewrite !shas_app; cbn [fst snd] in *; rewrite K1, K3; reflexivity|exact Hl].
  cbn [map]. rewrite append_assoc. change (k +++ "=" +++ v) with (k +++ String "=" v). rewrite split1_app by exact K2. f_equal.
  rewrite map_map. rewrite <- (map_id l) at 2. apply map_ext_in. intros kv Hkv. destruct (Hl kv Hkv) as (H1 & H2 & H3).
  change (fst kv +++ "=" +++ snd kv) with (fst kv +++ String "=" (snd kv)). rewrite split1_app by exact H2. destruct kv. reflexivity.
Qed.
(** The first field is the action, whatever comes after. *)
Lemma action_first path x r : shas "?" path = false -> shas "&" x = false ->
  action (path +++ "?action=" +++ x +++ "&" +++ r) x.
Proof.
  intros Hp Hx. unfold action, values, fields.
  change (path +++ "?action=" +++ x +++ "&" +++ r) with (path +++ String "?" ("action=" +++ x +++ String "&" r)).
  rewrite split1_app by exact Hp. rewrite <- append_assoc. rewrite split_on_app by (rewrite shas_app, Hx; reflexivity).
  cbn [map]. change ("action=" +++ x) with ("action" +++ String "=" x). rewrite split1_app by reflexivity. cbn [filter fst].
  rewrite eqb_refl. cbn [map snd]. eexists. reflexivity.
Qed.
Lemma action_only path x : shas "?" path = false -> shas "&" x = false -> action (path +++ "?action=" +++ x) x.
Proof.
  intros Hp Hx. unfold action, values, fields. change (path +++ "?action=" +++ x) with (path +++ String "?" ("action=" +++ x)).
  rewrite split1_app by exact Hp. rewrite split_on_none by (rewrite shas_app, Hx; reflexivity).
  cbn [map]. change ("action=" +++ x) with ("action" +++ String "=" x). rewrite split1_app by reflexivity. cbn [filter fst].
  rewrite eqb_refl. cbn [map snd]. eexists. reflexivity.
Qed.
Lemma action_unique q x y : action q x -> action q y -> x = y.
Proof. intros (r & H) (r' & H'). congruence. Qed.

Lemma lacks_py_str c n : numchar c = false -> shas c (py_str n) = false.
Proof.
  intros Hc. pose proof (py_str_chars n) as H. revert H. generalize (py_str n). induction s as [|d s IH]; [reflexivity|]. cbn [sall].
  intros H. apply andb_prop in H. destruct H as (H1 & H2). rewrite shas_cons, (IH H2), orb_false_r.
  destruct (Ascii.eqb_spec c d) as [->|]; [congruence|reflexivity].
Qed.

Lemma act_workgroups : action q_workgroups "get_workgroups".
Proof. exact (action_only "services/data.cgi" "get_workgroups" eq_refl eq_refl). Qed.
Lemma act_ports n : action (q_ports n) "get_node_interfaces".
Proof. exact (action_first "services/data.cgi" "get_node_interfaces" ("node=" +++ n +++ "&show_down=1&show_trunk=1") eq_refl eq_refl). Qed.
Lemma act_vlan n i v : action (q_vlan n i v) "is_vlan_tag_available".
Proof. exact (action_first "services/data.cgi" "is_vlan_tag_available" ("node=" +++ n +++ "&interface=" +++ i +++ "&vlan=" +++ v) eq_refl eq_refl). Qed.
Lemma act_path s d p : action (q_path s d p) "get_shortest_path".
Proof. exact (action_first "services/data.cgi" "get_shortest_path" ("node=" +++ s +++ "&node=" +++ d +++ fold_right (fun l t => "&link=" +++ j_text l +++ t) "" p) eq_refl eq_refl). Qed.

Lemma fields_circuits g : fields (q_circuits (JInt g)) = [("action", "get_existing_circuits"); ("workgroup_id", py_str g)].
Proof.
  rewrite <- (fields_amp "services/data.cgi" "action" "get_existing_circuits" [("workgroup_id", py_str g)]);
    [|reflexivity|repeat split|].
  - unfold q_circuits. cbn [amp fold_right fst snd j_text]. rewrite append_nil_r. reflexivity.
  - intros kv [<-|[]]. split; [reflexivity|split; [reflexivity|apply lacks_py_str; reflexivity]].
Qed.
Lemma fields_remove g id : fields (q_remove (JInt g) (py_str id)) =
  [("action", "remove_circuit"); ("remove_time", "-1"); ("workgroup_id", py_str g); ("circuit_id", py_str id)].
Proof.
  rewrite <- (fields_amp "services/provisioning.cgi" "action" "remove_circuit" [("remove_time", "-1"); ("workgroup_id", py_str g); ("circuit_id", py_str id)]);
    [|reflexivity|repeat split|].
  - unfold q_remove. cbn [amp fold_right fst snd j_text]. rewrite append_nil_r. reflexivity.
  - intros kv [<-|[<-|[<-|[]]]]; split; try reflexivity; split; try reflexivity; apply lacks_py_str; reflexivity.
Qed.
Lemma link_fields_amp key ls t : link_fields ("&" +++ key +++ "=") ls = Ok t ->
  exists names, ls = map JStr names /\ t = amp (map (pair key) names).
Proof.
  revert t. induction ls as [|j ls IH]; intros t; cbn [link_fields].
  - intros [= <-]. exists []. split; reflexivity.
  - destruct j; try discriminate. destruct (link_fields ("&" +++ key +++ "=") ls) as [t'|]; [|discriminate]. cbn [Base.bind].
    intros [= <-]. destruct (IH t' eq_refl) as (names & -> & ->). exists (s :: names). split; [reflexivity|].
    cbn [map amp fold_right fst snd]. change (append key "=") with (key +++ "="). rewrite !append_assoc. reflexivity.
Qed.
Lemma ok_inj {A} (a b : A) : Ok a = Ok b -> a = b.
Proof. intros H. inversion H. reflexivity. Qed.
Definition names_ok (ls : list json) : Prop := forall j, In j ls -> exists name, j = JStr name /\ shas "&" name = false.
Lemma q_provision_ok wg sn si st dn di dt prim back : names_ok prim -> names_ok back ->
  exists q, q_provision wg sn si st dn di dt prim back = Ok q.
Proof.
  intros H1 H2. assert (L : forall key ls, names_ok ls -> exists t, link_fields key ls = Ok t).
  { intros key ls. induction ls as [|j ls IH]; intros H; [exists ""; reflexivity|].
    destruct (H j (or_introl eq_refl)) as (n & -> & _). destruct IH as (t & Ht); [intros x Hx; apply H; right; exact Hx|].
    cbn [link_fields]. rewrite Ht. eexists. reflexivity. }
  unfold q_provision. destruct (L "&link=" prim H1) as (p & ->), (L "&backup_link=" back H2) as (b & ->). eexists. reflexivity.
Qed.
Lemma fields_provision g sn si st dn di dt prim back q :
  q_provision (JInt g) sn si st dn di dt prim back = Ok q -> names_ok prim -> names_ok back ->
  (forall x, In x [sn; si; st; dn; di; dt] -> shas "&" x = false) ->
  exists l l', (forall kv, In kv (l ++ l') -> fst kv = "link" \/ fst kv = "backup_link") /\
    fields q = [("action", "provision_circuit"); ("workgroup_id", py_str g); ("node", sn); ("interface", si); ("tag", st); ("node", dn); ("interface", di); ("tag", dt)]
      ++ l ++ l' ++ [("provision_time", "-1"); ("remove_time", "-1"); ("description", "NSI-VLAN-" +++ st +++ "-" +++ dt)].
Proof.
  intros H Hp Hb Hx. unfold q_provision in H.
  destruct (link_fields "&link=" prim) as [tp|] eqn:E; [|discriminate]. cbn [Base.bind] in H.
  destruct (link_fields "&backup_link=" back) as [tb|] eqn:E'; [|discriminate]. cbn [Base.bind] in H.
  destruct (link_fields_amp "link" prim tp E) as (np & -> & ->). destruct (link_fields_amp "backup_link" back tb E') as (nb & -> & ->).
  exists (map (pair "link") np), (map (pair "backup_link") nb). split.
  { intros kv Hkv. apply in_app_or in Hkv. destruct Hkv as [Hkv|Hkv]; apply in_map_iff in Hkv; destruct Hkv as (n & <- & _); [left|right]; reflexivity. }
  apply (ok_inj) in H. rewrite <- H. clear H.
  set (rest := [("workgroup_id", py_str g); ("node", sn); ("interface", si); ("tag", st); ("node", dn); ("interface", di); ("tag", dt)]
    ++ map (pair "link") np ++ map (pair "backup_link") nb ++ [("provision_time", "-1"); ("remove_time", "-1"); ("description", "NSI-VLAN-" +++ st +++ "-" +++ dt)]).
  match goal with |- fields ?t = _ => change (fields t = ("action", "provision_circuit") :: rest) end.
  rewrite <- (fields_amp "services/provisioning.cgi" "action" "provision_circuit" rest); [|reflexivity|repeat split|].
  - unfold rest. rewrite !amp_app. cbn [amp fold_right fst snd]. rewrite !append_assoc, append_nil_r. cbn [j_text]. rewrite ?append_assoc. reflexivity.
  - intros kv Hkv. unfold rest in Hkv.
    assert (X : forall x, In x [sn; si; st; dn; di; dt] -> shas "&" x = false) by exact Hx.
    apply in_app_or in Hkv. destruct Hkv as [Hkv|Hkv].
    + cbn [In] in Hkv. repeat destruct Hkv as [<-|Hkv]; try contradiction; (split; [reflexivity|split; [reflexivity|]]); cbn [snd];
        try (apply lacks_py_str; reflexivity); apply X; cbn [In]; tauto.
    + apply in_app_or in Hkv. destruct Hkv as [Hkv|Hkv].
      { apply in_map_iff in Hkv. destruct Hkv as (n & <- & Hn). split; [reflexivity|split; [reflexivity|]]. cbn [snd].
        destruct (Hp (JStr n)) as (n' & E1 & E2); [apply in_map; exact Hn|]. injection E1 as ->. exact E2. }
      apply in_app_or in Hkv. destruct Hkv as [Hkv|Hkv].
      { apply in_map_iff in Hkv. destruct Hkv as (n & <- & Hn). split; [reflexivity|split; [reflexivity|]]. cbn [snd].
        destruct (Hb (JStr n)) as (n' & E1 & E2); [apply in_map; exact Hn|]. injection E1 as ->. exact E2. }
      cbn [In] in Hkv. repeat destruct Hkv as [<-|Hkv]; try contradiction; (split; [reflexivity|split; [reflexivity|]]); cbn [snd]; try reflexivity.
      rewrite !shas_app, (X st), (X dt); [reflexivity|cbn [In]; tauto|cbn [In]; tauto].
Qed.
