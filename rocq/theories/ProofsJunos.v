(** Proofs about Juniper routers and EX4550 switches. *)
From Verif Require Import Base BaseProofs ModelLabel ModelAuthz ModelNRM ModelSTP ModelDrivers ModelJunos SpecDrivers SpecJunos
  ProofsDrivers ProofsSwitches ProofsJoined.
Open Scope Z_scope.
#[local] Arguments vlan_name : simpl never.
#[local] Arguments label_value : simpl never.
#[local] Arguments py_str : simpl never.

(** * Histories of a device with a Juniper configuration *)
Definition said (cmd : string) : path := norm (tl (words cmd)).
Definition verb (w cmd : string) : Prop := exists p, words cmd = w :: p.

Lemma clash_ends p q : clash p q = true ->
  removelast p = removelast q /\ last p "" <> last q "" /\ mem (last (removelast p) "") one_valued = true.
Proof.
  intros H. destruct (clash_last _ _ H) as (r & k & v & w & -> & -> & Hm & Hn).
  change (r ++ [k; v]) with (r ++ [k] ++ [v]). change (r ++ [k; w]) with (r ++ [k] ++ [w]). rewrite !app_assoc.
  rewrite !removelast_last, !last_last. auto.
Qed.

Lemma clash_pre p q : clash p q = true -> exists w, q = removelast p ++ [w].
Proof.
  intros H. destruct (clash_last _ _ H) as (r & k & v & w & -> & -> & _ & _). exists w.
  change (r ++ [k; v]) with (r ++ [k] ++ [v]). change (r ++ [k; w]) with (r ++ [k] ++ [w]). rewrite !app_assoc, removelast_last. reflexivity.
Qed.

Lemma fold_sets cs : Forall (verb "set") cs ->
  (forall c c', In c cs -> In c' cs -> clash (said c) (said c') = false) -> forall d q,
  In q (fold_left junos_exec cs d) <->
  In q (map said cs) \/ (In q d /\ forall c, In c cs -> clash (said c) q = false).
Proof.
  induction cs as [|c cs IH]; intros Hv Hc d q.
  - cbn. split; [intros H; right; split; [exact H|tauto]|intros [[]|[H _]]; exact H].
  - cbn [fold_left map In]. pose proof (Forall_inv Hv) as (p & Hp). pose proof (Forall_inv_tail Hv) as Hv'. 
    assert (Hs : said c = norm p) by (unfold said; rewrite Hp; reflexivity).
    rewrite IH; [|exact Hv'|intros; apply Hc; cbn; auto]. rewrite (junos_set _ _ _ _ Hp), <- Hs. split.
    + intros [H|[[->|[H1 H2]] H]]; [auto|auto|right; split; [exact H1|]]. intros x [<-|Hx]; auto.
    + intros [[H|H]|[H1 H2]]; [right|auto|right].
      * subst q. split; [auto|]. intros x Hx. apply Hc; cbn; auto.
      * split; [right; auto|auto].
Qed.
Lemma fold_dels cs : Forall (verb "delete") cs -> forall d q,
  In q (fold_left junos_exec cs d) <-> In q d /\ forall c, In c cs -> below (said c) q = false.
Proof.
  induction cs as [|c cs IH]; intros Hv d q.
  - cbn. split; [intros H; split; [exact H|tauto]|intros [H _]; exact H].
  - cbn [fold_left In]. pose proof (Forall_inv Hv) as (p & Hp). pose proof (Forall_inv_tail Hv) as Hv'.
    assert (Hs : said c = norm p) by (unfold said; rewrite Hp; reflexivity).
    rewrite IH by exact Hv'. rewrite (junos_delete _ _ _ _ Hp), <- Hs. split.
    + intros [[H1 H2] H]. split; [exact H1|]. intros x [<-|Hx]; auto.
    + intros [H1 H2]. auto.
Qed.

Section Config.
  Context (D : driver string) (may : link -> Prop) (d0 : list path) (good : link -> Prop) (base : path -> Prop).
  Variables (sets dels : link -> list path).
  Hypothesis good_ok : forall k cs, may k -> picked k -> nameable D k ->
    dr_setup D (k_id k) (k_sp k) (k_sl k) (k_dp k) (k_dl k) = Ok cs -> good k.
  Hypothesis sets_ok : forall k cs, good k -> dr_setup D (k_id k) (k_sp k) (k_sl k) (k_dp k) (k_dl k) = Ok cs ->
    Forall (verb "set") cs /\ forall q, In q (map said cs) <-> In q (sets k).
  Hypothesis dels_ok : forall k cs, good k -> dr_teardown D (k_id k) (k_sp k) (k_sl k) (k_dp k) (k_dl k) = Ok cs ->
    Forall (verb "delete") cs /\ forall q, In q (map said cs) <-> In q (dels k).
  Hypothesis alone : forall k p p', good k -> In p (sets k) -> In p' (sets k) -> clash p p' = false.
  Hypothesis own : forall k p, good k -> In p (sets k) -> base p \/ exists x, In x (dels k) /\ below x p = true.
  Hypothesis spare : forall k k' p, good k -> good k' -> apart D k k' -> In p (sets k') ->
    (forall x, In x (dels k) -> below x p = false) /\ (forall x, In x (sets k) -> clash x p = false).
  Hypothesis fresh : forall k p, good k -> In p d0 ->
    (forall x, In x (dels k) -> below x p = false) /\ (forall x, In x (sets k) -> clash x p = false).

  Theorem config_inv d ks : reach D junos_exec may d0 d ks ->
    (forall k p, In k ks -> In p (sets k) -> In p d) /\ (forall k, In k ks -> good k) /\ (forall q, In q d0 -> In q d) /\
    (forall q, In q d -> base q \/ In q d0 \/ exists k, In k ks /\ In q (sets k)).
  Proof.
    induction 1 as [|d ks k cs Hr (I1 & I2 & I3 & I4) Hm Hp Hn Ha Hs|d ks1 k ks2 cs Hr (I1 & I2 & I3 & I4) Ht].
    - split; [intros k p []|]. split; [intros k []|]. auto.
    - pose proof (good_ok _ _ Hm Hp Hn Hs) as Hg. destruct (sets_ok _ _ Hg Hs) as [Hv Hi].
      assert (F : forall q, In q (fold_left junos_exec cs d) <-> In q (sets k) \/ (In q d /\ forall x, In x (sets k) -> clash x q = false)).
      { intros q. rewrite fold_sets; [|exact Hv|].
        - rewrite Hi. split; (intros [H|[H1 H2]]; [left; exact H|right; split; [exact H1|]]).
          + intros x Hx. apply Hi in Hx. apply in_map_iff in Hx as (c & <- & Hc). auto.
          + intros c Hc. apply H2. apply Hi. apply in_map. exact Hc.
        - intros c c' Hc Hc'. apply (alone k); [exact Hg| |]; apply Hi; apply in_map; assumption. }
      split; [|split; [|split]].
      + intros x p [<-|Hx] Hin; apply F; [left; exact Hin|right]. split; [eauto|]. 
        apply (spare k x p Hg (I2 x Hx) (Ha x Hx) Hin).
      + intros x [<-|Hx]; auto.
      + intros q Hq. apply F. right. split; [auto|]. apply (fresh k q Hg Hq).
      + intros q Hq. apply F in Hq as [Hq|[Hq _]].
        * right; right. exists k. split; [left; reflexivity|exact Hq].
        * destruct (I4 q Hq) as [H|[H|(x & Hx & H)]]; [auto|auto|]. right; right. exists x. split; [right; exact Hx|exact H].
    - assert (Hg : good k) by (apply I2; rewrite in_app_iff; cbn; auto). destruct (dels_ok _ _ Hg Ht) as [Hv Hi].
      assert (F : forall q, In q (fold_left junos_exec cs d) <-> In q d /\ forall x, In x (dels k) -> below x q = false).
      { intros q. rewrite fold_dels by exact Hv. split; intros [H1 H2]; (split; [exact H1|]).
        - intros x Hx. apply Hi in Hx. apply in_map_iff in Hx as (c & <- & Hc). auto.
        - intros c Hc. apply H2. apply Hi. apply in_map. exact Hc. }
      assert (Hx : forall x, In x (ks1 ++ ks2) -> In x (ks1 ++ k :: ks2)) by (intros x; rewrite !in_app_iff; cbn; tauto).
      assert (Hap : forall x, In x (ks1 ++ ks2) -> apart D k x).
      { clear - Hr. remember (ks1 ++ k :: ks2) as ks eqn:E. revert ks1 ks2 E. 
        assert (G : forall ks, reach D junos_exec may d0 d ks -> ForallOrdPairs (apart D) ks).
        { clear. intros ks. induction 1 as [|d ks k cs Hr IH Hm Hp Hn Ha Hs|d ks1 k ks2 cs Hr IH Ht].
          - constructor.
          - constructor; [rewrite Forall_forall; exact Ha|exact IH].
          - clear - IH. induction ks1 as [|a l IHl]; cbn in *; inversion IH; subst; [assumption|]. constructor; [|apply IHl; assumption].
            rewrite Forall_forall in *. intros x Hx. apply H1. rewrite in_app_iff in *. cbn. tauto. }
        specialize (G ks Hr). clear Hr. intros ks1 ks2 ->. induction ks1 as [|a l IHl]; cbn in *; inversion G; subst.
        - rewrite Forall_forall in H1. exact H1.
        - intros x [<-|Hx]; [|apply IHl; assumption]. rewrite Forall_forall in H1. apply apart_sym. apply H1. rewrite in_app_iff. cbn. auto. }
      split; [|split; [|split]].
      + intros x p H Hin. apply F. split; [eauto|]. apply (spare k x p Hg (I2 x (Hx x H)) (Hap x H) Hin).
      + intros x H. auto.
      + intros q Hq. apply F. split; [auto|]. apply (fresh k q Hg Hq).
      + intros q Hq. apply F in Hq as [Hq Hb]. destruct (I4 q Hq) as [H|[H|(x & H & Hs)]]; [auto|auto|].
        rewrite in_app_iff in H. cbn in H.
        assert (C : In x (ks1 ++ ks2) \/ x = k) by (rewrite in_app_iff; intuition).
        destruct C as [C| ->]; [right; right; eauto|]. destruct (own k q Hg Hs) as [H'|(y & Hy & H')]; [auto|].
        rewrite (Hb y Hy) in H'. discriminate H'.
  Qed.
End Config.

(** * The commands and what they say *)
Definition speaks (w : string) (cs : list string) (ps : list path) : Prop := Forall (verb w) cs /\ map said cs = ps.
Lemma speaks_nil w : speaks w [] [].
Proof. split; [constructor|reflexivity]. Qed.
Lemma speaks_cons w c cs p p' ps : words c = w :: p -> norm p = p' -> speaks w cs ps -> speaks w (c :: cs) (p' :: ps).
Proof.
  intros H1 H2 [H3 H4]. split; [constructor; [exists p; exact H1|exact H3]|]. cbn. rewrite H4. unfold said. rewrite H1. cbn [tl]. rewrite H2. reflexivity.
Qed.
Lemma speaks_app w cs ps cs' ps' : speaks w cs ps -> speaks w cs' ps' -> speaks w (cs ++ cs') (ps ++ ps').
Proof. intros [H1 H2] [H3 H4]. split; [apply Forall_app; auto|rewrite map_app, H2, H4; reflexivity]. Qed.

Definition plain (s : string) : Prop := word s /\ shas "." s = false.
Definition port_sets (p : string) : list path :=
  [["interfaces"; p; "encapsulation"; "ethernet-ccc"]; ["interfaces"; p; "mtu"; "9000"]; ["interfaces"; p; "unit"; "0"; "family"; "ccc"]].
Definition vlan_sets (p u : string) : list path :=
  [["interfaces"; p; "flexible-vlan-tagging"]; ["interfaces"; p; "encapsulation"; "flexible-ethernet-services"];
   ["interfaces"; p; "unit"; u; "encapsulation"; "vlan-ccc"]; ["interfaces"; p; "unit"; u; "vlan-id"; u];
   ["interfaces"; p; "unit"; u; "input-vlan-map"; "pop"]; ["interfaces"; p; "unit"; u; "output-vlan-map"; "push"]].
Definition xvlan_sets (p u : string) : list path :=
  [["interfaces"; p; "vlan-tagging"]; ["interfaces"; p; "mtu"; "9000"]; ["interfaces"; p; "encapsulation"; "vlan-ccc"];
   ["interfaces"; p; "unit"; u; "encapsulation"; "vlan-ccc"]; ["interfaces"; p; "unit"; u; "vlan-id"; u];
   ["interfaces"; p; "unit"; u; "swap-by-poppush"]].
Definition swi (s a : string) : path := ["protocols"; "connections"; "interface-switch"; s; "interface"; a].
Definition rswi (s x a : string) : path := ["protocols"; "connections"; "remote-interface-switch"; s; x; a].
Definition lsp (u : string) : path := ["protocols"; "mpls"; "label-switched-path"; u].

Ltac say l := apply (words_join l); [discriminate|]; wordy.
Ltac norms := first [reflexivity | apply norm_plain; assumption].

Lemma say_port p : plain p -> speaks "set" (mx_port_commands p) (port_sets p).
Proof.
  intros [W Dp]. unfold mx_port_commands, port_sets.
  eapply speaks_cons; [say ["set"; "interfaces"; p; "encapsulation"; "ethernet-ccc"]|norms|].
  eapply speaks_cons; [say ["set"; "interfaces"; p; "mtu"; "9000"]|norms|].
  eapply speaks_cons; [say ["set"; "interfaces"; p; "unit"; "0"; "family"; "ccc"]|norms|]. apply speaks_nil.
Qed.
Lemma say_vlan p u : plain p -> word u -> speaks "set" (mx_vlan_commands p u) (vlan_sets p u).
Proof.
  intros [W Dp] Wu. unfold mx_vlan_commands, vlan_sets.
  eapply speaks_cons; [say ["set"; "interfaces"; p; "flexible-vlan-tagging"]|norms|].
  eapply speaks_cons; [say ["set"; "interfaces"; p; "encapsulation"; "flexible-ethernet-services"]|norms|].
  eapply speaks_cons; [say ["set"; "interfaces"; p; "unit"; u; "encapsulation"; "vlan-ccc"]|norms|].
  eapply speaks_cons; [say ["set"; "interfaces"; p; "unit"; u; "vlan-id"; u]|norms|].
  eapply speaks_cons; [say ["set"; "interfaces"; p; "unit"; u; "input-vlan-map"; "pop"]|norms|].
  eapply speaks_cons; [say ["set"; "interfaces"; p; "unit"; u; "output-vlan-map"; "push"]|norms|]. apply speaks_nil.
Qed.
Lemma say_xvlan p u : plain p -> word u -> speaks "set" (jx_vlan_commands p u) (xvlan_sets p u).
Proof.
  intros [W Dp] Wu. unfold jx_vlan_commands, xvlan_sets.
  eapply speaks_cons; [say ["set"; "interfaces"; p; "vlan-tagging"]|norms|].
  eapply speaks_cons; [say ["set"; "interfaces"; p; "mtu"; "9000"]|norms|].
  eapply speaks_cons; [say ["set"; "interfaces"; p; "encapsulation"; "vlan-ccc"]|norms|].
  eapply speaks_cons; [say ["set"; "interfaces"; p; "unit"; u; "encapsulation"; "vlan-ccc"]|norms|].
  eapply speaks_cons; [say ["set"; "interfaces"; p; "unit"; u; "vlan-id"; u]|norms|].
  eapply speaks_cons; [say ["set"; "interfaces"; p; "unit"; u; "swap-by-poppush"]|norms|]. apply speaks_nil.
Qed.
Lemma say_connection s p u cs ps : word s -> word p -> word u -> speaks "set" cs ps ->
  speaks "set" (set_connection s p u :: cs) (swi s (p +++ "." +++ u) :: ps).
Proof.
  intros Ws Wp Wu H. apply (speaks_cons _ _ _ (swi s (p +++ "." +++ u))); [|reflexivity|exact H].
  apply (words_join ("set" :: swi s (p +++ "." +++ u))); [discriminate|]. unfold swi. wordy.
  apply word_app; [exact Wp|]. apply word_app; [reflexivity|exact Wu].
Qed.
Lemma say_del_interface p : plain p -> speaks "delete" [del_interfaces p] [["interfaces"; p]].
Proof. intros [W Dp]. eapply speaks_cons; [say ["delete"; "interfaces"; p]|norms|]. apply speaks_nil. Qed.
Lemma say_del_unit p u : word p -> plain u -> speaks "delete" [del_interfaces_vl p u] [["interfaces"; p; "unit"; u]].
Proof.
  intros W [Wu Du]. apply (speaks_cons _ _ _ ["interfaces"; p +++ "." +++ u]); [|apply norm_dotted; exact Du|apply speaks_nil].
  apply (words_join ["delete"; "interfaces"; p +++ "." +++ u]); [discriminate|]. wordy.
  apply word_app; [exact W|]. apply word_app; [reflexivity|exact Wu].
Qed.
Lemma say_del_connections s : word s -> speaks "delete" [del_connections s] [["protocols"; "connections"; "interface-switch"; s]].
Proof. intros W. eapply speaks_cons; [say ["delete"; "protocols"; "connections"; "interface-switch"; s]|norms|]. apply speaks_nil. Qed.
Lemma say_del_lsp u : word u -> speaks "delete" [del_lsp u] [lsp u].
Proof. intros W. eapply speaks_cons; [say ["delete"; "protocols"; "mpls"; "label-switched-path"; u]|norms|]. apply speaks_nil. Qed.
Lemma say_del_remote_sw s : word s -> speaks "delete" [del_remote_sw s] [["protocols"; "connections"; "remote-interface-switch"; s]].
Proof. intros W. eapply speaks_cons; [say ["delete"; "protocols"; "connections"; "remote-interface-switch"; s]|norms|]. apply speaks_nil. Qed.
Lemma say_lsp s u ip a u' : word s -> word u -> word ip -> word a -> word u' ->
  speaks "set" [set_lsp_to u ip; set_lsp_nocspf u; set_remote_int s a; set_transmit s u; set_receive s u']
    [lsp u ++ ["to"; ip]; lsp u ++ ["no-cspf"]; rswi s "interface" a; rswi s "transmit-lsp" u; rswi s "receive-lsp" u'].
Proof.
  intros Ws Wu Wi Wa Wu'.
  eapply speaks_cons; [say ["set"; "protocols"; "mpls"; "label-switched-path"; u; "to"; ip]|norms|].
  eapply speaks_cons; [say ["set"; "protocols"; "mpls"; "label-switched-path"; u; "no-cspf"]|norms|].
  eapply speaks_cons; [say ["set"; "protocols"; "connections"; "remote-interface-switch"; s; "interface"; a]|norms|].
  eapply speaks_cons; [say ["set"; "protocols"; "connections"; "remote-interface-switch"; s; "transmit-lsp"; u]|norms|].
  eapply speaks_cons; [say ["set"; "protocols"; "connections"; "remote-interface-switch"; s; "receive-lsp"; u']|norms|]. apply speaks_nil.
Qed.

(** * Which statements get in each other's way *)
Definition e_sets (e : cend) : list path := match e with CPort p => port_sets p | CVlan p v => vlan_sets p (py_str v) end.
Definition e_del (e : cend) : path := match e with CPort p => ["interfaces"; p] | CVlan p v => ["interfaces"; p; "unit"; py_str v] end.
(** whether ends on one interface are of one kind *)
Definition agree (e e' : cend) : Prop :=
  match e, e' with CPort p, CVlan p' _ | CVlan p _, CPort p' => p <> p' | _, _ => True end.

Ltac each H := cbn [In app] in H; repeat destruct H as [<-|H]; try contradiction.
Ltac no_clash := match goal with |- clash ?p ?q = false => destruct (clash p q) eqn:?HC; [exfalso|reflexivity] end;
  match goal with HC : clash _ _ = true |- _ => apply clash_ends in HC; cbn [removelast last] in HC; destruct HC as (?HC1 & ?HC2 & ?HC3) end.
Ltac no_below := match goal with |- below ?p ?q = false => destruct (below p q) eqn:?HB; [exfalso|reflexivity] end;
  match goal with HB : below _ _ = true |- _ => apply below_iff in HB as [?r HB]; cbn [app] in HB end.

Lemma end_clash e e' p p' : agree e e' -> In p (e_sets e) -> In p' (e_sets e') -> clash p p' = false.
Proof.
  intros Ha Hp Hp'. destruct e as [x|x v], e' as [x'|x' v']; cbn [e_sets agree] in *; unfold port_sets, vlan_sets in *;
    each Hp; each Hp'; no_clash; try discriminate; try congruence.
Qed.
Lemma interfaces_head e p : In p (e_sets e) -> exists x r, p = "interfaces" :: x :: r.
Proof. destruct e; cbn [e_sets]; unfold port_sets, vlan_sets; intros H; each H; eauto. Qed.
Lemma head_clash a p b q : a <> b -> clash (a :: p) (b :: q) = false.
Proof. intros H. cbn. rewrite (eqb_neq a b) by exact H. reflexivity. Qed.
Lemma head_below a p b q : a <> b -> below (a :: p) (b :: q) = false.
Proof. intros H. cbn. rewrite (eqb_neq a b) by exact H. reflexivity. Qed.
Lemma end_below e e' p : agree e e' -> e <> e' -> In p (e_sets e') -> below (e_del e) p = false.
Proof.
  intros Ha Hn Hp. destruct e as [x|x v], e' as [x'|x' v']; cbn [e_sets e_del agree] in *; unfold port_sets, vlan_sets in *;
    each Hp; no_below; try discriminate; injection HB; intros; subst; try congruence.
  all: match goal with H : py_str _ = py_str _ |- _ => apply py_str_inj in H end; congruence.
Qed.
Definition base (q : path) : Prop := exists p x r, q = "interfaces" :: p :: x :: r /\ x <> "unit".
Lemma end_own e p : In p (e_sets e) -> base p \/ below (e_del e) p = true.
Proof.
  intros Hp. destruct e as [x|x v]; cbn [e_sets e_del] in *; unfold port_sets, vlan_sets in *; each Hp;
    first [right; apply below_iff; eexists; reflexivity|left; unfold base; eexists; eexists; eexists; split; [reflexivity|discriminate]].
Qed.

Lemma ok_inj {A} (a b : A) : Ok a = Ok b -> a = b.
Proof. intros H. injection H. auto. Qed.

(** * junosmx.py *)
Definition cross_sets (s : string) (e e' : cend) : list path := e_sets e ++ e_sets e' ++ [swi s (sub e); swi s (sub e')].
Definition cross_dels (s : string) (e e' : cend) : list path :=
  [e_del e; e_del e'; ["protocols"; "connections"; "interface-switch"; s]].
Definition tun_sets (s : string) (e : cend) (u ip u' : string) : list path :=
  e_sets e ++ [lsp u ++ ["to"; ip]; lsp u ++ ["no-cspf"]; rswi s "interface" (tunnel_sub e); rswi s "transmit-lsp" u; rswi s "receive-lsp" u'].
Definition tun_dels (s : string) (e : cend) (u : string) : list path :=
  [e_del e; lsp u; ["protocols"; "connections"; "remote-interface-switch"; s]].

(** what a target looks like *)
Definition t_end (t : jtarget) (e : cend) : Prop :=
  jt_itf t = e_itf e /\ plain (e_itf e) /\
  match e with CPort _ => jt_type t = None | CVlan _ v => jt_type t = Some "vlan" /\ jt_text t = py_str v end.
Definition t_mpls (t : jtarget) (rn : string) (v : Z) : Prop :=
  jt_type t = Some "mpls" /\ jt_text t = py_str v /\ p_remote_network (jt_port t) = Some rn.

Lemma plain_py_str v : plain (py_str v).
Proof.
  split; [apply word_py_str|]. pose proof (py_str_chars v) as H. revert H. generalize (py_str v) as s.
  induction s as [|c s IH]; intros H; [reflexivity|]. cbn [sall] in H. apply andb_prop in H as [H1 H2].
  rewrite shas_cons, (IH H2), orb_false_r. destruct (Ascii.eqb_spec "." c) as [<-|Hn]; [discriminate H1|reflexivity].
Qed.

(** the commands for one end *)
Definition end_up (t : jtarget) : list string :=
  match jt_type t with
  | None => mx_port_commands (jt_itf t)
  | Some ty => if eqb ty "vlan" then mx_vlan_commands (jt_itf t) (jt_text t) else []
  end.
Definition end_down (t : jtarget) : list string :=
  match jt_type t with
  | None => [del_interfaces (jt_itf t)]
  | Some ty => if eqb ty "vlan" then [del_interfaces_vl (jt_itf t) (jt_text t)] else []
  end.
Lemma end_up_says t e : t_end t e -> speaks "set" (end_up t) (e_sets e).
Proof.
  intros (Hi & Hp & H). unfold end_up. rewrite Hi. destruct e as [p|p v]; cbn [e_itf e_sets] in *.
  - rewrite H. apply say_port. exact Hp.
  - destruct H as [-> ->]. rewrite eqb_refl. apply say_vlan; [exact Hp|apply word_py_str].
Qed.
Lemma end_down_says t e : t_end t e -> speaks "delete" (end_down t) [e_del e].
Proof.
  intros (Hi & Hp & H). unfold end_down. rewrite Hi. destruct e as [p|p v]; cbn [e_itf e_del] in *.
  - rewrite H. apply say_del_interface. exact Hp.
  - destruct H as [-> ->]. rewrite eqb_refl. apply say_del_unit; [apply Hp|apply plain_py_str].
Qed.
Lemma end_switch_says s t e cs ps : word s -> t_end t e -> speaks "set" cs ps ->
  speaks "set" (set_connection s (jt_itf t) (match jt_type t with None => "0" | Some _ => jt_text t end) :: cs) (swi s (sub e) :: ps).
Proof.
  intros Ws (Hi & [Hp _] & H) Hc. rewrite Hi. destruct e as [p|p v]; cbn [e_itf sub] in *.
  - rewrite H. apply (say_connection s p "0"); [exact Ws|exact Hp|reflexivity|exact Hc].
  - destruct H as [-> ->]. apply say_connection; [exact Ws|exact Hp|apply word_py_str|exact Hc].
Qed.

Lemma six_word a b v : word (six a) -> word (six b) -> word (lsp_name a b (py_str v)).
Proof.
  intros Ha Hb. unfold lsp_name. apply word_app; [reflexivity|]. apply word_app; [exact Ha|]. apply word_app; [reflexivity|].
  apply word_app; [exact Hb|]. apply word_app; [reflexivity|apply word_py_str].
Qed.
Lemma word_sub e : plain (e_itf e) -> word (tunnel_sub e).
Proof.
  intros [H _]. destruct e; cbn [tunnel_sub e_itf] in *; [exact H|]. apply word_app; [exact H|]. apply word_app; [reflexivity|apply word_py_str].
Qed.

Lemma length_append a b : String.length (a +++ b) = (String.length a + String.length b)%nat.
Proof. induction a as [|c a IH]; cbn; [reflexivity|]. rewrite IH. reflexivity. Qed.
Lemma append_inj_l a a' b : a +++ b = a' +++ b -> a = a'.
Proof.
  intros H. assert (L : String.length a = String.length a').
  { apply (f_equal String.length) in H. rewrite !length_append in H. lia. }
  revert a' L H. induction a as [|c a IH]; intros [|c' a'] L H; try discriminate L; [reflexivity|].
  cbn in H. injection H as -> H. f_equal. apply IH; [cbn in L; lia|exact H].
Qed.
Lemma path_name_inj a a' b v v' : path_name a b v = path_name a' b v' -> substring 0 6 a = substring 0 6 a' /\ v = v'.
Proof.
  intros H. unfold path_name in H.
  assert (S : forall x n, "T-" +++ x +++ "-F-" +++ substring 0 6 b +++ "-mpls" +++ py_str n =
    ("T-" +++ x +++ "-F-" +++ substring 0 6 b +++ "-mpl") +++ String "s" (py_str n)).
  { intros x n. rewrite !append_assoc. reflexivity. }
  assert (N : forall n, shas "s" (py_str n) = false).
  { intros n. pose proof (py_str_chars n) as P. revert P. generalize (py_str n) as s. induction s as [|c s IH]; intros P; [reflexivity|].
    cbn [sall] in P. apply andb_prop in P as [P1 P2]. rewrite shas_cons, (IH P2), orb_false_r.
    destruct (Ascii.eqb_spec "s" c) as [<-|NE]; [discriminate P1|reflexivity]. }
  rewrite !S in H. apply (f_equal (rsplit1 "s")) in H. rewrite !rsplit1_app in H by apply N.
  apply (f_equal (fun o => match o with Some p => p | None => (EmptyString, EmptyString) end)) in H.
  pose proof (f_equal fst H) as H1. pose proof (f_equal snd H) as H2. cbn [fst snd] in H1, H2. apply py_str_inj in H2. split; [|exact H2].
  apply append_inj_r in H1. apply append_inj_l in H1. exact H1.
Qed.

Section MX.
  Variable routers : list (string * string).
  Variable net : string.
  Variable pm : list (string * nrm_port).
  Hypothesis Ho : own_interfaces pm.
  Hypothesis Hn : own_networks pm.
  Hypothesis Wnet : word (substring 0 6 net).
  Hypothesis Wr : forall n ip, aget n routers = Some ip -> word ip.
  Let D := junosmx routers net pm.

  Lemma target_end port l e : end_at pm port l e -> exists t, mx_target pm port l = Ok t /\ t_end t e /\ (is_local t = true <-> local_port pm port).
  Proof.
    intros (p & Hp & H). unfold mx_target, nrm_of. rewrite Hp. cbn [bind]. eexists. split; [reflexivity|].
    destruct (proj1 Ho _ _ Hp) as [W Dt]. split.
    - unfold t_end, jt_itf, jt_type, jt_text. cbn [jt_port jt_value].
      destruct (p_label p) as [pl|], l as [l|]; try contradiction.
      + destruct H as (Ht & v & -> & ->). cbn [e_itf option_map]. rewrite Ht, label_value_single. repeat split; assumption.
      + subst e. cbn [e_itf]. repeat split; assumption.
    - unfold is_local. cbn [jt_port]. split.
      + intros Hl. exists p. split; [exact Hp|]. destruct (p_remote_network p); [discriminate Hl|reflexivity].
      + intros (p' & Hp' & Hl). rewrite Hp in Hp'. injection Hp' as <-. rewrite Hl. reflexivity.
  Qed.
  Lemma target_mpls port l rn v : mpls_at pm port l rn v -> exists t, mx_target pm port l = Ok t /\ t_mpls t rn v.
  Proof.
    intros (p & pl & Hp & Hl & Ht & -> & Hr). unfold mx_target, nrm_of. rewrite Hp. cbn [bind]. eexists. split; [reflexivity|].
    unfold t_mpls, jt_type, jt_text. cbn [jt_port jt_value option_map]. rewrite Hl, label_value_single. cbn [option_map]. rewrite Ht. auto.
  Qed.
  Lemma mpls_six port l rn v : mpls_at pm port l rn v -> word (six rn).
  Proof. intros (p & pl & Hp & _ & _ & _ & Hr). apply (proj1 Hn _ _ _ Hp Hr). Qed.

  Definition setup_of (k : link) := dr_setup D (k_id k) (k_sp k) (k_sl k) (k_dp k) (k_dl k).
  Definition teardown_of (k : link) := dr_teardown D (k_id k) (k_sp k) (k_sl k) (k_dp k) (k_dl k).
  Definition ends (k : link) (e e' : cend) : Prop :=
    (end_at pm (k_sp k) (k_sl k) e /\ end_at pm (k_dp k) (k_dl k) e') \/ (end_at pm (k_dp k) (k_dl k) e /\ end_at pm (k_sp k) (k_sl k) e').
  Definition ends_mpls (k : link) (e : cend) (rn : string) (v : Z) : Prop :=
    (end_at pm (k_sp k) (k_sl k) e /\ mpls_at pm (k_dp k) (k_dl k) rn v) \/ (mpls_at pm (k_sp k) (k_sl k) rn v /\ end_at pm (k_dp k) (k_dl k) e).
  Definition crossed (k : link) (e e' : cend) : Prop := ends k e e' /\
    exists cs cs', setup_of k = Ok cs /\ teardown_of k = Ok cs' /\
      speaks "set" cs (cross_sets (mx_switch (k_id k)) e e') /\ speaks "delete" cs' (cross_dels (mx_switch (k_id k)) e e').
  Definition tunnel (k : link) (e : cend) (rn : string) (v : Z) (ip : string) : Prop := ends_mpls k e rn v /\ router_of routers rn ip /\
    exists cs cs' ds, setup_of k = Ok cs /\ teardown_of k = Ok cs' /\
      speaks "set" cs (tun_sets (k_id k) e (path_name rn net v) ip (path_name net rn v)) /\ speaks "delete" cs' ds /\
      forall q, In q ds <-> In q (tun_dels (k_id k) e (path_name rn net v)).

  Lemma word_switch k : word (k_id k) -> word (mx_switch (k_id k)).
  Proof. intros H. apply word_app; [reflexivity|exact H]. Qed.

  (** two Ethernet ends, whatever the branch *)
  Lemma cross_case k t t' e e' : word (k_id k) -> t_end t e -> t_end t' e' -> forall cs cs',
    cs = end_up t ++ end_up t' ++ mx_cross (k_id k) t t' ->
    cs' = end_down t ++ end_down t' ++ [del_connections (mx_switch (k_id k))] ->
    speaks "set" cs (cross_sets (mx_switch (k_id k)) e e') /\ speaks "delete" cs' (cross_dels (mx_switch (k_id k)) e e').
  Proof.
    intros Hw Ht Ht' cs cs' -> ->. pose proof (word_switch k Hw) as Ws. split.
    - unfold cross_sets. apply speaks_app; [apply end_up_says; exact Ht|]. apply speaks_app; [apply end_up_says; exact Ht'|].
      unfold mx_cross. cbn [map]. apply end_switch_says; [exact Ws|exact Ht|]. apply end_switch_says; [exact Ws|exact Ht'|]. apply speaks_nil.
    - unfold cross_dels. change [e_del e; e_del e'; ["protocols"; "connections"; "interface-switch"; mx_switch (k_id k)]]
        with ([e_del e] ++ [e_del e'] ++ [["protocols"; "connections"; "interface-switch"; mx_switch (k_id k)]]).
      apply speaks_app; [apply end_down_says; exact Ht|]. apply speaks_app; [apply end_down_says; exact Ht'|]. apply say_del_connections. exact Ws.
  Qed.

  Lemma t_end_vlan t p v : t_end t (CVlan p v) -> is_vlan t = true /\ is_mpls t = false /\ jt_type t = Some "vlan".
  Proof. intros (_ & _ & H & _). unfold is_vlan, is_mpls. rewrite H. auto. Qed.
  Lemma t_mpls_kind t rn v : t_mpls t rn v -> is_vlan t = false /\ is_mpls t = true /\ is_local t = false.
  Proof. intros (H & _ & H'). unfold is_vlan, is_mpls, is_local. rewrite H, H'. auto. Qed.
  Lemma t_end_not_mpls t e : t_end t e -> is_mpls t = false.
  Proof. intros (_ & _ & H). unfold is_mpls. destruct e; [rewrite H|destruct H as [H _]; rewrite H]; reflexivity. Qed.

  Lemma lsp_name_spec a b v t : jt_text t = py_str v -> lsp_name a b (jt_text t) = path_name a b v.
  Proof. intros ->. reflexivity. Qed.

  Lemma tunnel_case k t t' e rn v port l ip : word (k_id k) -> t_end t e -> t_mpls t' rn v -> mpls_at pm port l rn v ->
    loopback routers rn = Ok ip ->
    exists cs, (cs = end_up t ++ [set_lsp_to (lsp_name rn net (jt_text t')) ip; set_lsp_nocspf (lsp_name rn net (jt_text t'));
                           set_remote_int (k_id k) (tunnel_sub e); set_transmit (k_id k) (lsp_name rn net (jt_text t'));
                           set_receive (k_id k) (lsp_name net rn (jt_text t'))]) /\
      speaks "set" cs (tun_sets (k_id k) e (path_name rn net v) ip (path_name net rn v)) /\ router_of routers rn ip.
  Proof.
    intros Hw Ht (_ & Hv & _) Hm Hl. eexists. split; [reflexivity|]. pose proof (mpls_six _ _ _ _ Hm) as W6. 
    unfold loopback in Hl. destruct (aget (remove_all ":topology" 0 rn) routers) as [ip'|] eqn:Eip; [|discriminate Hl]. injection Hl as ->.
    split; [|exact Eip]. rewrite !(lsp_name_spec _ _ v _ Hv). apply speaks_app; [apply end_up_says; exact Ht|].
    apply say_lsp; [exact Hw|apply six_word; assumption|exact (Wr _ _ Eip)|apply word_sub; apply Ht|apply six_word; assumption].
  Qed.
  Lemma tunnel_dels k t e rn v : word (k_id k) -> word (six rn) -> t_end t e ->
    speaks "delete" (end_down t) [e_del e] /\ speaks "delete" [del_lsp (path_name rn net v)] [lsp (path_name rn net v)] /\
    speaks "delete" [del_remote_sw (k_id k)] [["protocols"; "connections"; "remote-interface-switch"; k_id k]].
  Proof.
    intros Hw H6 Ht. split; [apply end_down_says; exact Ht|]. split; [apply say_del_lsp, six_word; assumption|apply say_del_remote_sw; exact Hw].
  Qed.

  Lemma mx_made k cs : word (k_id k) -> mx_kind pm k -> setup_of k = Ok cs ->
    (exists e e', crossed k e e') \/ (exists e rn v ip, tunnel k e rn v ip).
  Proof.
    intros Hw Hk Hs. pose proof Hs as Hs0. unfold setup_of, D in Hs. cbn [dr_setup junosmx] in Hs. unfold via_targets in Hs.
    destruct Hk as [e e' H H' L L'|p v p' v' H H'|e rn v H H' L|e rn v H' H L].
    - left. exists e, e'. destruct (target_end _ _ _ H) as (t & Et & Ht & Hl). destruct (target_end _ _ _ H') as (t' & Et' & Ht' & Hl').
      rewrite Et, Et' in Hs. cbn [bind] in Hs. apply Hl in L. apply Hl' in L'. unfold mx_up in Hs. rewrite L, L' in Hs. cbn [andb] in Hs.
      split; [left; auto|]. eexists; eexists. split; [exact Hs0|]. split.
      { unfold teardown_of, D. cbn [dr_teardown junosmx]. unfold via_targets. rewrite Et, Et'. cbn [bind]. unfold mx_down. rewrite L, L'. cbn [andb]. reflexivity. }
      apply (cross_case k t t' e e' Hw Ht Ht').
      + apply ok_inj in Hs. subst cs. unfold mx_local_up. cbn [flat_map]. rewrite app_nil_r, <- app_assoc. reflexivity.
      + unfold mx_local_down. cbn [flat_map]. rewrite app_nil_r, <- app_assoc. reflexivity.
    - destruct (target_end _ _ _ H) as (t & Et & Ht & Hl). destruct (target_end _ _ _ H') as (t' & Et' & Ht' & Hl').
      rewrite Et, Et' in Hs. cbn [bind] in Hs.
      pose proof (t_end_vlan _ _ _ Ht) as (V & M & Ty). pose proof (t_end_vlan _ _ _ Ht') as (V' & M' & Ty').
      assert (Td : teardown_of k = mx_down net (k_id k) t t').
      { unfold teardown_of, D. cbn [dr_teardown junosmx]. unfold via_targets. rewrite Et, Et'. reflexivity. }
      left. unfold mx_up in Hs. unfold mx_down in Td. destruct (is_local t) eqn:L, (is_local t') eqn:L'; cbn [andb negb] in Hs, Td.
      + exists (CVlan p v), (CVlan p' v'). split; [left; auto|]. eexists; eexists. split; [exact Hs0|]. split; [exact Td|].
        apply (cross_case k t t' _ _ Hw Ht Ht').
        * apply ok_inj in Hs. subst cs. unfold mx_local_up. cbn [flat_map]. rewrite app_nil_r, <- app_assoc. reflexivity.
        * unfold mx_local_down. cbn [flat_map]. rewrite app_nil_r, <- app_assoc. reflexivity.
      + exists (CVlan p v), (CVlan p' v'). split; [left; auto|]. unfold mx_remote_up, mx_sides in Hs. unfold mx_remote_down, mx_sides in Td. rewrite L in Hs, Td.
        rewrite M', V', Ty in Hs. rewrite Ty, Ty' in Td. cbn in Hs, Td. eexists; eexists. split; [exact Hs0|]. split; [exact Td|].
        apply (cross_case k t t' _ _ Hw Ht Ht').
        * apply ok_inj in Hs. subst cs. unfold end_up, mx_cross. cbn [map]. rewrite Ty, Ty'. reflexivity.
        * unfold end_down. rewrite Ty, Ty'. reflexivity.
      + exists (CVlan p' v'), (CVlan p v). split; [right; auto|]. unfold mx_remote_up, mx_sides in Hs. unfold mx_remote_down, mx_sides in Td. rewrite L in Hs, Td.
        rewrite M, V, Ty' in Hs. rewrite Ty, Ty' in Td. cbn in Hs, Td. eexists; eexists. split; [exact Hs0|]. split; [exact Td|].
        apply (cross_case k t' t _ _ Hw Ht' Ht).
        * apply ok_inj in Hs. subst cs. unfold end_up, mx_cross. cbn [map]. rewrite Ty, Ty'. reflexivity.
        * unfold end_down. rewrite Ty, Ty'. reflexivity.
      + exists (CVlan p v), (CVlan p' v'). split; [left; auto|]. unfold mx_transit_up in Hs. unfold mx_transit_down in Td.
        rewrite V, V', M, M' in Hs. rewrite V, V', M, M', Ty, Ty' in Td. cbn in Hs, Td. eexists; eexists. split; [exact Hs0|]. split; [exact Td|].
        apply (cross_case k t t' _ _ Hw Ht Ht').
        * apply ok_inj in Hs. subst cs. unfold end_up, mx_cross. cbn [map]. rewrite !Ty, !Ty'. reflexivity.
        * unfold end_down. rewrite Ty, Ty'. reflexivity.
    - destruct (target_end _ _ _ H) as (t & Et & Ht & Hl). destruct (target_mpls _ _ _ _ H') as (t' & Et' & Ht').
      rewrite Et, Et' in Hs. cbn [bind] in Hs. pose proof (t_mpls_kind _ _ _ Ht') as (V' & M' & L'). pose proof (t_end_not_mpls _ _ Ht) as M.
      assert (Td : teardown_of k = mx_down net (k_id k) t t').
      { unfold teardown_of, D. cbn [dr_teardown junosmx]. unfold via_targets. rewrite Et, Et'. reflexivity. }
      pose proof Ht' as (Ty' & Tx' & Rn). assert (Rm : remote_of t' = Ok rn) by (unfold remote_of; rewrite Rn; reflexivity).
      right. unfold mx_up in Hs. unfold mx_down in Td. rewrite L' in Hs, Td. rewrite andb_false_r in Hs, Td. cbn [negb] in Hs, Td. rewrite andb_true_r in Hs, Td.
      destruct (is_local t) eqn:Lt; cbn [negb] in Hs, Td.
      + unfold mx_remote_up, mx_sides in Hs. unfold mx_remote_down, mx_sides in Td. rewrite Lt in Hs, Td. rewrite M', V' in Hs. rewrite Ty', Rm in Td. cbn [bind] in Td. 
        change (eqb "mpls" "mpls") with true in Td. cbv iota in Td. cbn [bind] in Td. unfold mx_lsp_up in Hs. rewrite Rm in Hs. cbn [bind] in Hs.
        destruct (loopback routers rn) as [ip|] eqn:Elp; [|discriminate Hs]. cbn [bind] in Hs.
        destruct (tunnel_case k t t' e rn v _ _ ip Hw Ht Ht' H' Elp) as (cs1 & Ecs & Sp & Ro).
        assert (E1 : cs = cs1).
        { apply ok_inj in Hs. subst cs cs1. rewrite app_nil_r. f_equal. destruct Ht as (Hi & Hp & Hx). destruct e as [p|p w]; cbn [tunnel_sub e_itf] in *.
          - rewrite Hx, Hi. reflexivity.
          - destruct Hx as [-> ->]. rewrite Hi. reflexivity. }
        subst cs1. rewrite <- E1 in Sp. exists e, rn, v, ip. split; [left; auto|]. split; [exact Ro|]. eexists; eexists; eexists. split; [exact Hs0|]. split; [exact Td|]. split; [exact Sp|].
        rewrite (lsp_name_spec _ _ v _ Tx'). destruct (tunnel_dels k t e rn v Hw (mpls_six _ _ _ _ H') Ht) as (S1 & S2 & S3). split.
        * exact (speaks_app _ _ _ _ _ S1 (speaks_app _ _ _ _ _ S2 S3)).
        * intros q. reflexivity.
      + destruct e as [p|p w]; [exfalso; pose proof (proj2 Hl (L p eq_refl)); congruence|].
        pose proof (t_end_vlan _ _ _ Ht) as (V & _ & Ty).
        unfold mx_transit_up in Hs. unfold mx_transit_down in Td. rewrite V, V', M, M' in Hs. rewrite V, V', M, M', Ty, Ty', Rm in Td. cbn [bind andb orb] in Td.
        change (eqb "mpls" "mpls" || eqb "vlan" "mpls") with true in Td. cbv iota in Td. cbn [bind] in Td. unfold mx_lsp_up in Hs. rewrite Rm in Hs. cbn [bind] in Hs.
        destruct (loopback routers rn) as [ip|] eqn:Elp; [|discriminate Hs]. cbn [bind] in Hs.
        destruct (tunnel_case k t t' _ rn v _ _ ip Hw Ht Ht' H' Elp) as (cs1 & Ecs & Sp & Ro).
        assert (E1 : cs = cs1).
        { apply ok_inj in Hs. subst cs cs1. unfold end_up. rewrite Ty. change (eqb "vlan" "vlan") with true. cbv iota.
          rewrite app_nil_r. destruct Ht as (Hi & Hp & Hx). destruct Hx as [_ ->]. cbn [tunnel_sub e_itf] in *. rewrite Hi. reflexivity. }
        subst cs1. rewrite <- E1 in Sp. exists (CVlan p w), rn, v, ip. split; [left; auto|]. split; [exact Ro|]. eexists; eexists; eexists. split; [exact Hs0|]. split; [exact Td|]. split; [exact Sp|].
        rewrite (lsp_name_spec _ _ v _ Tx'). destruct (tunnel_dels k t _ rn v Hw (mpls_six _ _ _ _ H') Ht) as (S1 & S2 & S3).
        unfold end_down in S1. rewrite Ty in S1. change (eqb "vlan" "vlan") with true in S1. cbv iota in S1. split.
        * exact (speaks_app _ _ _ _ _ S1 (speaks_app _ _ _ _ _ S2 S3)).
        * intros q. reflexivity.
    - destruct (target_end _ _ _ H) as (t & Et & Ht & Hl). destruct (target_mpls _ _ _ _ H') as (t' & Et' & Ht').
      rewrite Et, Et' in Hs. cbn [bind] in Hs. pose proof (t_mpls_kind _ _ _ Ht') as (V' & M' & L'). pose proof (t_end_not_mpls _ _ Ht) as M.
      assert (Td : teardown_of k = mx_down net (k_id k) t' t).
      { unfold teardown_of, D. cbn [dr_teardown junosmx]. unfold via_targets. rewrite Et, Et'. reflexivity. }
      pose proof Ht' as (Ty' & Tx' & Rn). assert (Rm : remote_of t' = Ok rn) by (unfold remote_of; rewrite Rn; reflexivity).
      right. unfold mx_up in Hs. unfold mx_down in Td. rewrite L' in Hs, Td. cbn [andb negb] in Hs, Td.
      destruct (is_local t) eqn:Lt; cbn [negb] in Hs, Td.
      + unfold mx_remote_up, mx_sides in Hs. unfold mx_remote_down, mx_sides in Td. rewrite L' in Hs, Td. rewrite M', V' in Hs. rewrite Ty', Rm in Td. cbn [bind] in Td. 
        change (eqb "mpls" "mpls") with true in Td. cbv iota in Td. cbn [bind] in Td. unfold mx_lsp_up in Hs. rewrite Rm in Hs. cbn [bind] in Hs.
        destruct (loopback routers rn) as [ip|] eqn:Elp; [|discriminate Hs]. cbn [bind] in Hs.
        destruct (tunnel_case k t t' e rn v _ _ ip Hw Ht Ht' H' Elp) as (cs1 & Ecs & Sp & Ro).
        assert (E1 : cs = cs1).
        { apply ok_inj in Hs. subst cs cs1. rewrite app_nil_r. f_equal. destruct Ht as (Hi & Hp & Hx). destruct e as [p|p w]; cbn [tunnel_sub e_itf] in *.
          - rewrite Hx, Hi. reflexivity.
          - destruct Hx as [-> ->]. rewrite Hi. reflexivity. }
        subst cs1. rewrite <- E1 in Sp. exists e, rn, v, ip. split; [right; auto|]. split; [exact Ro|]. eexists; eexists; eexists. split; [exact Hs0|]. split; [exact Td|]. split; [exact Sp|].
        rewrite (lsp_name_spec _ _ v _ Tx'). destruct (tunnel_dels k t e rn v Hw (mpls_six _ _ _ _ H') Ht) as (S1 & S2 & S3). split.
        * exact (speaks_app _ _ _ _ _ S1 (speaks_app _ _ _ _ _ S2 S3)).
        * intros q. reflexivity.
      + destruct e as [p|p w]; [exfalso; pose proof (proj2 Hl (L p eq_refl)); congruence|].
        pose proof (t_end_vlan _ _ _ Ht) as (V & _ & Ty).
        unfold mx_transit_up in Hs. unfold mx_transit_down in Td. rewrite V, V', M, M' in Hs. rewrite V, V', M, M', Ty, Ty', Rm in Td. cbn [bind andb orb] in Td.
        change (eqb "vlan" "mpls" || eqb "mpls" "mpls") with true in Td. cbv iota in Td. cbn [bind] in Td. unfold mx_lsp_up in Hs. rewrite Rm in Hs. cbn [bind] in Hs.
        destruct (loopback routers rn) as [ip|] eqn:Elp; [|discriminate Hs]. cbn [bind] in Hs.
        destruct (tunnel_case k t t' _ rn v _ _ ip Hw Ht Ht' H' Elp) as (cs1 & Ecs & Sp & Ro).
        assert (E1 : cs = cs1).
        { apply ok_inj in Hs. subst cs cs1. unfold end_up. rewrite Ty. change (eqb "vlan" "vlan") with true. cbv iota.
          rewrite !app_nil_r. destruct Ht as (Hi & Hp & Hx). destruct Hx as [_ ->]. cbn [tunnel_sub e_itf] in *. rewrite Hi. reflexivity. }
        subst cs1. rewrite <- E1 in Sp. exists (CVlan p w), rn, v, ip. split; [right; auto|]. split; [exact Ro|]. eexists; eexists; eexists. split; [exact Hs0|]. split; [exact Td|]. split; [exact Sp|].
        rewrite (lsp_name_spec _ _ v _ Tx'). destruct (tunnel_dels k t _ rn v Hw (mpls_six _ _ _ _ H') Ht) as (S1 & S2 & S3).
        unfold end_down in S1. rewrite Ty in S1. change (eqb "vlan" "vlan") with true in S1. cbv iota in S1. split.
        * exact (speaks_app _ _ _ _ _ S2 (speaks_app _ _ _ _ _ S1 S3)).
        * intros q. unfold tun_dels. cbn [In app]. tauto.
  Qed.

  Lemma end_fun port l e e' : end_at pm port l e -> end_at pm port l e' -> e = e'.
  Proof.
    intros (p & Hp & H) (p' & Hp' & H'). rewrite Hp in Hp'. injection Hp' as <-. destruct (p_label p), l; try contradiction.
    - destruct H as (_ & v & -> & ->), H' as (_ & v' & E & ->). injection E as ->. reflexivity.
    - congruence.
  Qed.
  Lemma end_not_mpls port l e rn v : end_at pm port l e -> mpls_at pm port l rn v -> False.
  Proof.
    intros (p & Hp & H) (p' & pl & Hp' & Hl & Ht & -> & _). rewrite Hp in Hp'. injection Hp' as <-. rewrite Hl in H.
    destruct H as (_ & w & E & _). discriminate E.
  Qed.
  (** ** Links apart *)
  Lemma end_agree port l e port' l' e' : end_at pm port l e -> end_at pm port' l' e' -> agree e e'.
  Proof.
    intros (p & Hp & H) (p' & Hp' & H').
    assert (X : p_interface p = p_interface p' -> p = p').
    { intros E. pose proof (proj2 Ho _ _ _ _ Hp Hp' E) as ->. congruence. }
    destruct (p_label p) as [pl|] eqn:L, l as [l|]; try contradiction; destruct (p_label p') as [pl'|] eqn:L', l' as [l'|]; try contradiction.
    - destruct H as (_ & v & _ & ->), H' as (_ & v' & _ & ->). exact I.
    - destruct H as (_ & v & _ & ->). subst e'. intros E. apply X in E. congruence.
    - destruct H' as (_ & v & _ & ->). subst e. intros E. apply X in E. congruence.
    - subst e e'. exact I.
  Qed.
  Lemma end_apart k k' port l port' l' e e' : apart D k k' -> end_of k port l -> end_of k' port' l' ->
    end_at pm port l e -> end_at pm port' l' e' -> e <> e'.
  Proof.
    intros [_ Ha] He He' (p & Hp & H) (p' & Hp' & H') <-.
    assert (X : p_interface p = p_interface p' -> port = port') by (intros E; exact (proj2 Ho _ _ _ _ Hp Hp' E)).
    destruct (p_label p) as [pl|] eqn:L, l as [l|]; try contradiction; destruct (p_label p') as [pl'|] eqn:L', l' as [l'|]; try contradiction.
    - destruct H as (_ & v & -> & ->), H' as (_ & v' & -> & E). injection E as E <-. apply X in E as <-.
      apply (Ha (port +++ ":" +++ py_str v)).
      split; [exists port, (Some (mkLabel "vlan" [(v, v)]))|exists port, (Some (mkLabel "vlan" [(v, v)]))]; (split; [assumption|]);
        cbn; unfold mx_resource; cbn [ltype]; change (mem "vlan" ["mpls"; "vlan"]) with true; cbv iota; rewrite label_value_single; reflexivity.
    - destruct H as (_ & v & _ & ->). discriminate H'.
    - destruct H' as (_ & v & _ & E). subst e. discriminate E.
    - subst e. injection H' as E. apply X in E as <-. apply (Ha (port +++ ":")).
      split; [exists port, None|exists port, None]; (split; [assumption|reflexivity]).
  Qed.
  Lemma mpls_apart k k' port l port' l' rn v rn' v' : apart D k k' -> end_of k port l -> end_of k' port' l' ->
    mpls_at pm port l rn v -> mpls_at pm port' l' rn' v' -> path_name rn net v <> path_name rn' net v'.
  Proof.
    intros [_ Ha] He He' (p & pl & Hp & Hl & Ht & -> & Hr) (p' & pl' & Hp' & Hl' & Ht' & -> & Hr') E.
    apply path_name_inj in E as [E ->]. pose proof (proj2 Hn _ _ _ _ _ _ Hp Hp' Hr Hr' E) as <-.
    apply (Ha (port +++ ":" +++ py_str v')).
    split; exists port, (Some (mkLabel "mpls" [(v', v')])); (split; [assumption|]);
      cbn; unfold mx_resource; cbn [ltype]; change (mem "mpls" ["mpls"; "vlan"]) with true; cbv iota; rewrite label_value_single; reflexivity.
  Qed.

  Definition mx_may (k : link) : Prop := word (k_id k) /\ mx_kind pm k.
  Definition mx_good (k : link) : Prop := (exists e e', crossed k e e') \/ (exists e rn v ip, tunnel k e rn v ip).
  Definition mx_sets (k : link) : list path := match setup_of k with Ok cs => map said cs | Err _ => [] end.
  Definition mx_dels (k : link) : list path := match teardown_of k with Ok cs => map said cs | Err _ => [] end.

  Lemma crossed_sets k e e' : crossed k e e' -> mx_sets k = cross_sets (mx_switch (k_id k)) e e' /\ mx_dels k = cross_dels (mx_switch (k_id k)) e e'.
  Proof. intros (_ & cs & cs' & H1 & H2 & [_ H3] & [_ H4]). unfold mx_sets, mx_dels. rewrite H1, H2. auto. Qed.
  Lemma tunnel_sets k e rn v ip : tunnel k e rn v ip -> mx_sets k = tun_sets (k_id k) e (path_name rn net v) ip (path_name net rn v) /\
    forall q, In q (mx_dels k) <-> In q (tun_dels (k_id k) e (path_name rn net v)).
  Proof. intros (_ & _ & cs & cs' & ds & H1 & H2 & [_ H3] & [_ H4] & H5). unfold mx_sets, mx_dels. rewrite H1, H2, H4. auto. Qed.

  Lemma ends_of k e e' : ends k e e' -> (exists port l, end_of k port l /\ end_at pm port l e) /\ (exists port l, end_of k port l /\ end_at pm port l e').
  Proof.
    intros [[H H']|[H H']].
    - split; [exists (k_sp k), (k_sl k); split; [left; auto|exact H]|exists (k_dp k), (k_dl k); split; [right; auto|exact H']].
    - split; [exists (k_dp k), (k_dl k); split; [right; auto|exact H]|exists (k_sp k), (k_sl k); split; [left; auto|exact H']].
  Qed.
  Lemma ends_mpls_of k e rn v : ends_mpls k e rn v -> (exists port l, end_of k port l /\ end_at pm port l e) /\ (exists port l, end_of k port l /\ mpls_at pm port l rn v).
  Proof.
    intros [[H H']|[H' H]].
    - split; [exists (k_sp k), (k_sl k); split; [left; auto|exact H]|exists (k_dp k), (k_dl k); split; [right; auto|exact H']].
    - split; [exists (k_dp k), (k_dl k); split; [right; auto|exact H]|exists (k_sp k), (k_sl k); split; [left; auto|exact H']].
  Qed.

  Lemma e_sets_head e q : In q (e_sets e) -> exists r, q = "interfaces" :: r.
  Proof. intros H. destruct (interfaces_head e q H) as (x & r & ->). eauto. Qed.
  Lemma e_del_head e : exists r, e_del e = "interfaces" :: r.
  Proof. destruct e; cbn; eauto. Qed.
  Lemma e_proto_clash e q x : In q (e_sets e) -> clash q ("protocols" :: x) = false /\ clash ("protocols" :: x) q = false.
  Proof. intros H. destruct (e_sets_head e q H) as (r & ->). split; apply head_clash; discriminate. Qed.
  Lemma e_proto_below e q x : In q (e_sets e) -> below ("protocols" :: x) q = false.
  Proof. intros H. destruct (e_sets_head e q H) as (r & ->). apply head_below; discriminate. Qed.
  Lemma e_del_below e x : below (e_del e) ("protocols" :: x) = false.
  Proof. destruct (e_del_head e) as (r & ->). apply head_below; discriminate. Qed.

  Lemma mx_switch_inj a b : mx_switch a = mx_switch b -> a = b.
  Proof. apply append_inj_r. Qed.

  (** the statements under [protocols] of a link, and what of it is deleted *)
  Inductive protos (k : link) : list path -> list path -> Prop :=
  | protos_cross e e' : protos k [swi (mx_switch (k_id k)) (sub e); swi (mx_switch (k_id k)) (sub e')]
      [["protocols"; "connections"; "interface-switch"; mx_switch (k_id k)]]
  | protos_tun e rn v ip : (exists port l, end_of k port l /\ mpls_at pm port l rn v) ->
      protos k [lsp (path_name rn net v) ++ ["to"; ip]; lsp (path_name rn net v) ++ ["no-cspf"]; rswi (k_id k) "interface" (tunnel_sub e);
        rswi (k_id k) "transmit-lsp" (path_name rn net v); rswi (k_id k) "receive-lsp" (path_name net rn v)]
      [lsp (path_name rn net v); ["protocols"; "connections"; "remote-interface-switch"; k_id k]].
  (** the ends of a link *)
  Definition has_end (k : link) (e : cend) : Prop := exists port l, end_of k port l /\ end_at pm port l e.

  Lemma good_parts k : mx_good k -> exists es ps ds, protos k ps ds /\ Forall (has_end k) es /\
    (forall q, In q (mx_sets k) <-> (exists e, In e es /\ In q (e_sets e)) \/ In q ps) /\
    (forall q, In q (mx_dels k) <-> (exists e, In e es /\ q = e_del e) \/ In q ds).
  Proof.
    intros [(e & e' & H)|(e & rn & v & ip & H)].
    - destruct (crossed_sets _ _ _ H) as [Hs Hd]. exists [e; e']. eexists; eexists. split; [exact (protos_cross k e e')|].
      destruct H as [He _]. apply ends_of in He as [H1 H2]. split; [constructor; [exact H1|]; constructor; [exact H2|constructor]|].
      split; intros q; rewrite ?Hs, ?Hd; unfold cross_sets, cross_dels; rewrite ?in_app_iff; cbn [In]; split; intros H.
      + destruct H as [H|[H|H]]; [left; exists e; auto|left; exists e'; auto|right; tauto].
      + destruct H as [(x & [<-|[<-|[]]] & H)|H]; tauto.
      + destruct H as [H|[H|H]]; [left; exists e; auto|left; exists e'; auto|right; exact H].
      + destruct H as [(x & [<-|[<-|[]]] & H)|H]; auto.
    - destruct (tunnel_sets _ _ _ _ _ H) as [Hs Hd]. exists [e]. eexists; eexists. destruct H as [He _]. apply ends_mpls_of in He as [H1 H2].
      split; [exact (protos_tun k e rn v ip H2)|]. split; [constructor; [exact H1|constructor]|].
      split; intros q; rewrite ?Hs, ?Hd; unfold tun_sets, tun_dels; rewrite ?in_app_iff; cbn [In]; split; intros H.
      + destruct H as [H|H]; [left; exists e; auto|right; tauto].
      + destruct H as [(x & [<-|[]] & H)|H]; tauto.
      + destruct H as [H|[H|[H|[]]]]; [left; exists e; auto|right; auto|right; auto].
      + destruct H as [(x & [<-|[]] & ->)|H]; tauto.
  Qed.
  Lemma protos_head k ps ds : protos k ps ds -> (forall q, In q ps -> exists r, q = "protocols" :: r) /\ (forall q, In q ds -> exists r, q = "protocols" :: r).
  Proof. intros []; split; intros q Hq; unfold swi, rswi, lsp in Hq; each Hq; eauto. Qed.

  Lemma protos_alone k ps ds q q' : protos k ps ds -> In q ps -> In q' ps -> clash q q' = false.
  Proof. intros [] Hq Hq'; unfold swi, rswi, lsp in *; each Hq; each Hq'; no_clash; try discriminate; try congruence. Qed.
  Lemma protos_own k ps ds q : protos k ps ds -> In q ps -> exists x, In x ds /\ below x q = true.
  Proof.
    intros [] Hq; unfold swi, rswi, lsp in *; each Hq;
      first [eexists; split; [left; reflexivity|apply below_iff; eexists; reflexivity]
            |eexists; split; [right; left; reflexivity|apply below_iff; eexists; reflexivity]].
  Qed.
  Lemma protos_spare k k' ps ds ps' ds' q : apart D k k' -> protos k ps ds -> protos k' ps' ds' -> In q ps' ->
    (forall x, In x ds -> below x q = false) /\ (forall x, In x ps -> clash x q = false).
  Proof.
    intros Ha Hp Hp' Hq. pose proof (proj1 Ha) as Hid. assert (Hsw : mx_switch (k_id k) <> mx_switch (k_id k')) by (intros E; apply Hid, mx_switch_inj, E).
    destruct Hp as [e1 e2|e rn v ip (port & l & He & Hm)], Hp' as [e1' e2'|e' rn' v' ip' (port' & l' & He' & Hm')].
    4: pose proof (mpls_apart _ _ _ _ _ _ _ _ _ _ Ha He He' Hm Hm') as Hpn.
    all: unfold swi, rswi, lsp in *; each Hq; (split; intros x Hx; each Hx; [..]); 
      first [no_below; try discriminate; injection HB; intros; congruence | no_clash; try discriminate; congruence].
  Qed.

  Lemma mx_alone k p p' : mx_good k -> In p (mx_sets k) -> In p' (mx_sets k) -> clash p p' = false.
  Proof.
    intros Hg Hp Hp'. destruct (good_parts k Hg) as (es & ps & ds & Hpr & He & Hs & Hd). rewrite Forall_forall in He.
    apply Hs in Hp, Hp'. destruct (protos_head _ _ _ Hpr) as [Hh _].
    destruct Hp as [(e & Hie & Hp)|Hp], Hp' as [(e' & Hie' & Hp')|Hp'].
    - destruct (He e Hie) as (port & l & _ & Ha), (He e' Hie') as (port' & l' & _ & Ha'). apply (end_clash e e'); [|exact Hp|exact Hp'].
      exact (end_agree _ _ _ _ _ _ Ha Ha').
    - destruct (Hh _ Hp') as (r & ->). apply (e_proto_clash e p r Hp).
    - destruct (Hh _ Hp) as (r & ->). apply (e_proto_clash e' p' r Hp').
    - exact (protos_alone _ _ _ _ _ Hpr Hp Hp').
  Qed.
  Lemma mx_own k p : mx_good k -> In p (mx_sets k) -> base p \/ exists x, In x (mx_dels k) /\ below x p = true.
  Proof.
    intros Hg Hp. destruct (good_parts k Hg) as (es & ps & ds & Hpr & He & Hs & Hd). apply Hs in Hp. destruct Hp as [(e & Hie & Hp)|Hp].
    - destruct (end_own e p Hp) as [H|H]; [left; exact H|right]. exists (e_del e). split; [apply Hd; left; eauto|exact H].
    - right. destruct (protos_own _ _ _ _ Hpr Hp) as (x & Hx & H). exists x. split; [apply Hd; auto|exact H].
  Qed.
  Lemma mx_spare k k' p : mx_good k -> mx_good k' -> apart D k k' -> In p (mx_sets k') ->
    (forall x, In x (mx_dels k) -> below x p = false) /\ (forall x, In x (mx_sets k) -> clash x p = false).
  Proof.
    intros Hg Hg' Hap Hp. destruct (good_parts k Hg) as (es & ps & ds & Hpr & He & Hs & Hd). rewrite Forall_forall in He.
    destruct (good_parts k' Hg') as (es' & ps' & ds' & Hpr' & He' & Hs' & Hd'). rewrite Forall_forall in He'.
    destruct (protos_head _ _ _ Hpr) as [Hh Hhd]. destruct (protos_head _ _ _ Hpr') as [Hh' _].
    apply Hs' in Hp. destruct Hp as [(e' & Hie' & Hp)|Hp].
    - destruct (He' e' Hie') as (port' & l' & Ho' & Ha'). split; intros x Hx.
      + apply Hd in Hx as [(e & Hie & ->)|Hx]; [|destruct (Hhd _ Hx) as (r & ->); exact (e_proto_below e' p r Hp)].
        destruct (He e Hie) as (port & l & Ho1 & Ha). apply (end_below e e'); [exact (end_agree _ _ _ _ _ _ Ha Ha')| |exact Hp].
        exact (end_apart _ _ _ _ _ _ _ _ Hap Ho1 Ho' Ha Ha').
      + apply Hs in Hx as [(e & Hie & Hx)|Hx]; [|destruct (Hh _ Hx) as (r & ->); exact (proj2 (e_proto_clash e' p r Hp))].
        destruct (He e Hie) as (port & l & Ho1 & Ha). apply (end_clash e e'); [exact (end_agree _ _ _ _ _ _ Ha Ha')|exact Hx|exact Hp].
    - split; intros x Hx.
      + apply Hd in Hx as [(e & Hie & ->)|Hx]; [destruct (Hh' _ Hp) as (r & ->); apply e_del_below|].
        apply (proj1 (protos_spare _ _ _ _ _ _ _ Hap Hpr Hpr' Hp) x Hx).
      + apply Hs in Hx as [(e & Hie & Hx)|Hx]; [destruct (Hh' _ Hp) as (r & ->); exact (proj1 (e_proto_clash e x r Hx))|].
        apply (proj2 (protos_spare _ _ _ _ _ _ _ Hap Hpr Hpr' Hp) x Hx).
  Qed.

  Lemma end_in_pm port l e : end_at pm port l e -> exists p, aget port pm = Some p /\ e_itf e = p_interface p.
  Proof.
    intros (p & Hp & H). exists p. split; [exact Hp|]. destruct (p_label p), l; try contradiction; [destruct H as (_ & v & _ & ->)|subst e]; reflexivity.
  Qed.
  Lemma mx_fresh_ok d0 : junos_fresh pm "NSI-" d0 -> forall k q, mx_good k -> In q d0 ->
    (forall x, In x (mx_dels k) -> below x q = false) /\ (forall x, In x (mx_sets k) -> clash x q = false).
  Proof.
    intros Hf k q Hg Hq. destruct (Hf q Hq) as (F1 & F2 & F3 & F4).
    destruct (good_parts k Hg) as (es & ps & ds & Hpr & He & Hs & Hd). rewrite Forall_forall in He.
    assert (Hi : forall e r w, In e es -> q <> ("interfaces" :: e_itf e :: r) ++ w).
    { intros e r w Hie E. destruct (He e Hie) as (port & l & _ & Ha). destruct (end_in_pm _ _ _ Ha) as (p & Hp & Ei).
      pose proof (F1 _ _ Hp) as B. rewrite <- Ei in B. assert (B' : below ["interfaces"; e_itf e] q = true); [|congruence].
      apply below_iff. exists (r ++ w). exact E. }
    assert (Ht : forall rn v, path_name rn net v = "T-" +++ (substring 0 6 rn +++ "-F-" +++ substring 0 6 net +++ "-mpls" +++ py_str v)) by reflexivity.
    split; intros x Hx.
    - apply Hd in Hx as [(e & Hie & ->)|Hx].
      + destruct (below (e_del e) q) eqn:B; [|reflexivity]. exfalso. apply below_iff in B as (r & E).
        destruct e; cbn [e_del] in E; [exact (Hi _ [] _ Hie E)|exact (Hi _ _ _ Hie E)].
      + destruct Hpr as [e1 e2|e rn v ip _]; each Hx; [apply F2|rewrite Ht; apply F4|].
        destruct (below ["protocols"; "connections"; "remote-interface-switch"; k_id k] q) eqn:B; [|reflexivity]. exfalso.
        apply below_iff in B as (r & E). assert (below ["protocols"; "connections"; "remote-interface-switch"] q = true); [|congruence].
        apply below_iff. exists (k_id k :: r). exact E.
    - destruct (clash x q) eqn:B; [exfalso|reflexivity]. apply clash_pre in B as (w & E). 
      apply Hs in Hx as [(e & Hie & Hx)|Hx].
      + destruct e as [p|p v]; cbn [e_sets] in Hx; unfold port_sets, vlan_sets in Hx; each Hx; cbn [removelast app] in E;
          first [exact (Hi _ [] _ Hie E)|exact (Hi _ [_] _ Hie E)|exact (Hi _ [_; _] _ Hie E)|exact (Hi _ [_; _; _] _ Hie E)].
      + destruct Hpr as [e1 e2|e rn v ip _]; unfold swi, rswi, lsp in Hx; each Hx; cbn [removelast app] in E.
        1,2: specialize (F2 (k_id k)); change ("NSI-" +++ k_id k) with (mx_switch (k_id k)) in F2;
             assert (below ["protocols"; "connections"; "interface-switch"; mx_switch (k_id k)] q = true); [|congruence];
             apply below_iff; eexists; exact E.
        1,2: assert (below ["protocols"; "mpls"; "label-switched-path"; path_name rn net v] q = true) as B;
             [apply below_iff; eexists; exact E|rewrite Ht, F4 in B; discriminate B].
        all: assert (below ["protocols"; "connections"; "remote-interface-switch"] q = true); [|congruence]; apply below_iff; eexists; exact E.
  Qed.

  Section Run.
    Variables (may : link -> Prop) (d0 d : list path) (ks : list link).
    Hypothesis Hmay : forall k, may k -> mx_may k.
    Hypothesis Hf : junos_fresh pm "NSI-" d0.
    Hypothesis Hr : reach D junos_exec may d0 d ks.

    Lemma mx_config : (forall k p, In k ks -> In p (mx_sets k) -> In p d) /\ (forall k, In k ks -> mx_good k) /\ (forall q, In q d0 -> In q d) /\
      (forall q, In q d -> base q \/ In q d0 \/ exists k, In k ks /\ In q (mx_sets k)).
    Proof.
      apply (config_inv D may d0 mx_good base mx_sets mx_dels) with (d := d) (ks := ks).
      - intros k cs Hm _ _ Hs. destruct (Hmay _ Hm) as [Hw Hk]. exact (mx_made k cs Hw Hk Hs).
      - intros k cs Hg Hs. unfold mx_sets, setup_of. rewrite Hs. split; [|reflexivity].
        destruct Hg as [(e & e' & _ & cs1 & cs' & H1 & _ & [H2 _] & _)|(e & rn & v & ip & _ & _ & cs1 & cs' & ds & H1 & _ & [H2 _] & _)];
          unfold setup_of in H1; rewrite Hs in H1; apply ok_inj in H1; subst; exact H2.
      - intros k cs Hg Hs. unfold mx_dels, teardown_of. rewrite Hs. split; [|reflexivity].
        destruct Hg as [(e & e' & _ & cs1 & cs' & _ & H1 & _ & [H2 _])|(e & rn & v & ip & _ & _ & cs1 & cs' & ds & _ & H1 & _ & [H2 _] & _)];
          unfold teardown_of in H1; rewrite Hs in H1; apply ok_inj in H1; subst; exact H2.
      - exact mx_alone.
      - exact mx_own.
      - exact mx_spare.
      - exact (mx_fresh_ok d0 Hf).
      - exact Hr.
    Qed.

    Lemma proto_exact x : In ("protocols" :: x) d <-> In ("protocols" :: x) d0 \/ exists k, In k ks /\ In ("protocols" :: x) (mx_sets k).
    Proof.
      destruct mx_config as (C1 & C2 & C3 & C4). split.
      - intros H. destruct (C4 _ H) as [(p & y & r & E & _)|H']; [discriminate E|exact H'].
      - intros [H|(k & Hk & H)]; [apply C3; exact H|exact (C1 _ _ Hk H)].
    Qed.
    Lemma unit_exact p x : In ("interfaces" :: p :: "unit" :: x) d <-> In ("interfaces" :: p :: "unit" :: x) d0 \/ exists k, In k ks /\ In ("interfaces" :: p :: "unit" :: x) (mx_sets k).
    Proof.
      destruct mx_config as (C1 & C2 & C3 & C4). split.
      - intros H. destruct (C4 _ H) as [(p' & y & r & E & Hy)|H']; [injection E as _ E _; congruence|exact H'].
      - intros [H|(k & Hk & H)]; [apply C3; exact H|exact (C1 _ _ Hk H)].
    Qed.

    (** the ends of the links that are up are configured *)
    Theorem mx_ends : forall k e, In k ks -> has_end k e -> mx_ready d e.
    Proof.
      intros k e Hk (port & l & He & Ha). destruct mx_config as (C1 & C2 & _ & _).
      assert (X : forall q, In q (e_sets e) -> In q d).
      { intros q Hq. apply (C1 k q Hk). destruct (C2 k Hk) as [(e1 & e2 & Hc)|(e1 & rn & v & ip & Hc)].
        - pose proof (crossed_sets _ _ _ Hc) as [-> _]. unfold cross_sets. rewrite !in_app_iff. destruct Hc as [Hen _].
          assert (E : e = e1 \/ e = e2).
          { destruct He as [[-> ->]|[-> ->]], Hen as [[H1 H2]|[H1 H2]]; [left|right|right|left]; eapply end_fun; eassumption. }
          destruct E as [->| ->]; auto.
        - pose proof (tunnel_sets _ _ _ _ _ Hc) as [-> _]. unfold tun_sets. rewrite in_app_iff. destruct Hc as [Hen _].
          assert (E : e = e1).
          { destruct He as [[-> ->]|[-> ->]], Hen as [[H1 H2]|[H1 H2]]; try (eapply (end_fun _ _ _ _ Ha); eassumption); exfalso; eapply (end_not_mpls _ _ _ _ _ Ha); eassumption. }
          subst e1. auto. }
      destruct e as [p|p v]; cbn [mx_ready]; repeat split; apply X; cbn [e_sets]; unfold port_sets, vlan_sets; cbn [In]; tauto.
    Qed.

    Lemma same_link k k' : In k ks -> In k' ks -> k_id k = k_id k' -> k = k'.
    Proof.
      intros Hk Hk' E. destruct (reach_pairs _ _ _ _ _ _ Hr _ _ Hk Hk') as [H|[[H _]|[H _]]]; [exact H| |]; exfalso; auto.
    Qed.

    Lemma swi_in k s a : mx_good k -> In (swi s a) (mx_sets k) -> exists e e', crossed k e e' /\ s = mx_switch (k_id k) /\ (a = sub e \/ a = sub e').
    Proof.
      intros [(e & e' & Hc)|(e & rn & v & ip & Hc)] H.
      - exists e, e'. split; [exact Hc|]. pose proof (crossed_sets _ _ _ Hc) as [E _]. rewrite E in H. unfold cross_sets in H. rewrite !in_app_iff in H.
        destruct H as [H|[H|[H|[H|[]]]]]; try (destruct (e_sets_head _ _ H) as (r & E'); discriminate E'); unfold swi in H; injection H as <- <-; auto.
      - exfalso. pose proof (tunnel_sets _ _ _ _ _ Hc) as [E _]. rewrite E in H. unfold tun_sets in H. rewrite in_app_iff in H. unfold swi, rswi, lsp in H. cbn [In app] in H.
        destruct H as [H|H]; [destruct (e_sets_head _ _ H) as (r & E'); discriminate E'|].
        repeat destruct H as [H|H]; try discriminate H; exact H.
    Qed.
    Lemma swi_fresh s a k : In k ks -> s = mx_switch (k_id k) -> ~ In (swi s a) d0.
    Proof.
      intros Hk -> H. destruct (Hf _ H) as (_ & F & _). specialize (F (k_id k)). change ("NSI-" +++ k_id k) with (mx_switch (k_id k)) in F.
      assert (below ["protocols"; "connections"; "interface-switch"; mx_switch (k_id k)] (swi (mx_switch (k_id k)) a) = true); [|congruence].
      apply below_iff. eexists. reflexivity.
    Qed.

    (** which logical interfaces are cross-connected *)
    Theorem mx_switched a b : a <> b -> switched d a b <-> switched d0 a b \/ exists e e', joins pm ks e e' /\ a = sub e /\ b = sub e'.
    Proof.
      intros Hab. destruct mx_config as (C1 & C2 & C3 & C4). split.
      - intros (s & Ha & Hb). fold (swi s a) in Ha. fold (swi s b) in Hb. apply proto_exact in Ha, Hb.
        destruct Ha as [Ha|(k & Hk & Ha)].
        + left. exists s. split; [exact Ha|]. destruct Hb as [Hb|(k & Hk & Hb)]; [exact Hb|].
          destruct (swi_in _ _ _ (C2 k Hk) Hb) as (e & e' & _ & E & _). exfalso. exact (swi_fresh _ _ _ Hk E Ha).
        + right. destruct (swi_in _ _ _ (C2 k Hk) Ha) as (e & e' & Hc & E & Hea).
          destruct Hb as [Hb|(k' & Hk' & Hb)]; [exfalso; exact (swi_fresh _ _ _ Hk E Hb)|].
          destruct (swi_in _ _ _ (C2 k' Hk') Hb) as (_ & _ & _ & E' & _).
          assert (k' = k) as ->. { apply same_link; [exact Hk'|exact Hk|]. apply mx_switch_inj. congruence. }
          pose proof (crossed_sets _ _ _ Hc) as [Es _]. rewrite Es in Hb. unfold cross_sets in Hb. rewrite !in_app_iff in Hb.
          assert (Heb : b = sub e \/ b = sub e').
          { destruct Hb as [H|[H|[H|[H|[]]]]]; try (destruct (e_sets_head _ _ H) as (r & E''); discriminate E''); unfold swi in H; injection H as _ <-; auto. }
          destruct Hc as [Hen _].
          assert (J : joins pm ks e e' /\ joins pm ks e' e).
          { split; exists k; (split; [exact Hk|]); destruct Hen as [[H1 H2]|[H1 H2]]; auto. }
          destruct Hea as [->| ->], Heb as [->| ->]; try congruence; [exists e, e'|exists e', e]; tauto.
      - intros [(s & Ha & Hb)|(e & e' & (k & Hk & J) & -> & ->)].
        + exists s. split; apply C3; assumption.
        + exists (mx_switch (k_id k)). destruct (C2 k Hk) as [(e1 & e2 & Hc)|(e1 & rn & v & ip & Hc)].
          * pose proof (crossed_sets _ _ _ Hc) as [Es _]. destruct Hc as [Hen _].
            assert (X : (e = e1 /\ e' = e2) \/ (e = e2 /\ e' = e1)).
            { destruct J as [[J1 J2]|[J1 J2]], Hen as [[H1 H2]|[H1 H2]].
              - left. split; [exact (end_fun _ _ _ _ J1 H1)|exact (end_fun _ _ _ _ J2 H2)].
              - right. split; [exact (end_fun _ _ _ _ J1 H2)|exact (end_fun _ _ _ _ J2 H1)].
              - right. split; [exact (end_fun _ _ _ _ J2 H2)|exact (end_fun _ _ _ _ J1 H1)].
              - left. split; [exact (end_fun _ _ _ _ J2 H1)|exact (end_fun _ _ _ _ J1 H2)]. }
            assert (Y : forall x, x = e1 \/ x = e2 -> In (swi (mx_switch (k_id k)) (sub x)) d).
            { intros x Hx. apply (C1 k _ Hk). rewrite Es. unfold cross_sets. rewrite !in_app_iff. cbn [In]. destruct Hx as [->| ->]; tauto. }
            split; apply Y; tauto.
          * exfalso. destruct Hc as [Hen _]. destruct J as [[J1 J2]|[J1 J2]], Hen as [[H1 H2]|[H1 H2]].
            -- exact (end_not_mpls _ _ _ _ _ J2 H2).
            -- exact (end_not_mpls _ _ _ _ _ J1 H1).
            -- exact (end_not_mpls _ _ _ _ _ J2 H2).
            -- exact (end_not_mpls _ _ _ _ _ J1 H1).
    Qed.

    Lemma mpls_fun port l rn v rn' v' : mpls_at pm port l rn v -> mpls_at pm port l rn' v' -> rn = rn' /\ v = v'.
    Proof.
      intros (p & pl & Hp & Hl & Ht & -> & Hr1) (p' & pl' & Hp' & Hl' & Ht' & E & Hr2). injection E as E. rewrite Hp in Hp'. injection Hp' as <-.
      split; congruence.
    Qed.
    Lemma tun_in k x : mx_good k -> In x (mx_sets k) -> (exists s y a, x = rswi s y a) \/ (exists u r, x = lsp u ++ r) ->
      exists e rn v ip, tunnel k e rn v ip /\
        In x [lsp (path_name rn net v) ++ ["to"; ip]; lsp (path_name rn net v) ++ ["no-cspf"]; rswi (k_id k) "interface" (tunnel_sub e);
          rswi (k_id k) "transmit-lsp" (path_name rn net v); rswi (k_id k) "receive-lsp" (path_name net rn v)].
    Proof.
      intros [(e & e' & Hc)|(e & rn & v & ip & Hc)] H Hx.
      - exfalso. pose proof (crossed_sets _ _ _ Hc) as [E _]. rewrite E in H. unfold cross_sets in H. rewrite !in_app_iff in H.
        assert (Hh : exists r, x = "protocols" :: r) by (destruct Hx as [(s & y & a & ->)|(u & r & ->)]; unfold rswi, lsp; cbn; eauto). destruct Hh as (r0 & Eh).
        destruct H as [H|[H|[H|[H|[]]]]]; try (destruct (e_sets_head _ _ H) as (r & E'); congruence);
          destruct Hx as [(s & y & a & ->)|(u & r & ->)]; unfold swi, rswi, lsp in H; cbn [app] in H; discriminate H.
      - exists e, rn, v, ip. split; [exact Hc|]. pose proof (tunnel_sets _ _ _ _ _ Hc) as [E _]. rewrite E in H. unfold tun_sets in H. rewrite in_app_iff in H.
        destruct H as [H|H]; [|exact H]. exfalso.
        assert (Hh : exists r, x = "protocols" :: r) by (destruct Hx as [(s & y & a & ->)|(u & r & ->)]; unfold rswi, lsp; cbn; eauto). destruct Hh as (r0 & Eh).
        destruct (e_sets_head _ _ H) as (r & E'); congruence.
    Qed.

    (** which logical interfaces are connected to which paths *)
    Theorem mx_tunnelled a out ip inn : tunnelled d a out ip inn <->
      exists e rn v, leads pm ks e rn v /\ a = tunnel_sub e /\ out = path_name rn net v /\ inn = path_name net rn v /\ router_of routers rn ip.
    Proof.
      destruct mx_config as (C1 & C2 & C3 & C4).
      assert (NR : forall s y b, ~ In (rswi s y b) d0).
      { intros s y b H. destruct (Hf _ H) as (_ & _ & F & _). assert (below ["protocols"; "connections"; "remote-interface-switch"] (rswi s y b) = true); [|congruence].
        apply below_iff. eexists. reflexivity. }
      split.
      - intros (s & H1 & H2 & H3 & H4). fold (rswi s "interface" a) in H1. fold (rswi s "transmit-lsp" out) in H2. fold (rswi s "receive-lsp" inn) in H3.
        change (In (lsp out ++ ["to"; ip]) d) in H4. apply proto_exact in H1, H2, H3, H4.
        destruct H1 as [H1|(k & Hk & H1)]; [exfalso; exact (NR _ _ _ H1)|]. destruct H2 as [H2|(k2 & Hk2 & H2)]; [exfalso; exact (NR _ _ _ H2)|].
        destruct H3 as [H3|(k3 & Hk3 & H3)]; [exfalso; exact (NR _ _ _ H3)|].
        destruct (tun_in k _ (C2 k Hk) H1) as (e & rn & v & ip1 & Hc & G1); [left; do 3 eexists; reflexivity|].
        assert (S : forall k' y b, In k' ks -> In (rswi s y b) (mx_sets k') -> s = k_id k').
        { intros k' y b Hk' H. destruct (tun_in k' _ (C2 k' Hk') H) as (e' & rn' & v' & ip' & _ & G); [left; do 3 eexists; reflexivity|].
          unfold rswi, lsp in G. cbn [In app] in G. repeat destruct G as [G|G]; try discriminate G; try contradiction; apply (f_equal (fun l => nth 3 l "")) in G; symmetry; exact G. }
        pose proof (S _ _ _ Hk H1) as E1. pose proof (S _ _ _ Hk2 H2) as E2. pose proof (S _ _ _ Hk3 H3) as E3.
        pose proof (same_link k2 k Hk2 Hk ltac:(congruence)) as ->. pose proof (same_link k3 k Hk3 Hk ltac:(congruence)) as ->.
        pose proof (tunnel_sets _ _ _ _ _ Hc) as [Es _].
        assert (P : forall x, (exists r, x = "protocols" :: r) -> In x (mx_sets k) -> In x [lsp (path_name rn net v) ++ ["to"; ip1]; lsp (path_name rn net v) ++ ["no-cspf"]; rswi (k_id k) "interface" (tunnel_sub e);
          rswi (k_id k) "transmit-lsp" (path_name rn net v); rswi (k_id k) "receive-lsp" (path_name net rn v)]).
        { intros x (r & ->) H. rewrite Es in H. unfold tun_sets in H. rewrite in_app_iff in H. destruct H as [H|H]; [|exact H].
          destruct (e_sets_head _ _ H) as (r' & E'). discriminate E'. }
        assert (Ea : a = tunnel_sub e).
        { apply P in H1; [|eexists; reflexivity]. unfold rswi, lsp in H1. cbn [In app] in H1. repeat destruct H1 as [H1|H1]; try discriminate H1; try contradiction; apply (f_equal (fun l => nth 5 l "")) in H1; symmetry; exact H1. }
        assert (Eo : out = path_name rn net v).
        { apply P in H2; [|eexists; reflexivity]. unfold rswi, lsp in H2. cbn [In app] in H2. repeat destruct H2 as [H2|H2]; try discriminate H2; try contradiction; apply (f_equal (fun l => nth 5 l "")) in H2; symmetry; exact H2. }
        assert (Ei : inn = path_name net rn v).
        { apply P in H3; [|eexists; reflexivity]. unfold rswi, lsp in H3. cbn [In app] in H3. repeat destruct H3 as [H3|H3]; try discriminate H3; try contradiction; apply (f_equal (fun l => nth 5 l "")) in H3; symmetry; exact H3. }
        exists e, rn, v. pose proof Hc as (Hen & Hro & _). split; [exists k; split; [exact Hk|exact Hen]|]. split; [exact Ea|]. split; [exact Eo|]. split; [exact Ei|].
        destruct H4 as [H4|(k4 & Hk4 & H4)].
        { exfalso. destruct (Hf _ H4) as (_ & _ & _ & F). rewrite Eo in F.
          assert (B : below ["protocols"; "mpls"; "label-switched-path"; path_name rn net v] (lsp (path_name rn net v) ++ ["to"; ip]) = true) by (apply below_iff; eexists; reflexivity).
          unfold path_name in B at 1. rewrite F in B. discriminate B. }
        destruct (tun_in k4 _ (C2 k4 Hk4) H4) as (e4 & rn4 & v4 & ip4 & Hc4 & G4); [right; do 2 eexists; reflexivity|].
        assert (Eq : out = path_name rn4 net v4 /\ ip = ip4).
        { unfold rswi, lsp in G4. cbn [In app] in G4. repeat destruct G4 as [G4|G4]; try discriminate G4; try contradiction.
          apply (f_equal (fun l => (nth 3 l "", nth 5 l ""))) in G4. cbn [nth] in G4. split; [exact (eq_sym (f_equal fst G4))|exact (eq_sym (f_equal snd G4))]. }
        destruct Eq as [Eq ->]. pose proof Hc4 as (Hen4 & Hro4 & _).
        assert (X : rn4 = rn); [|rewrite X in Hro4; exact Hro4].
        apply ends_mpls_of in Hen4 as [_ (port4 & l4 & He4 & Hm4)]. apply ends_mpls_of in Hen as [_ (port1 & l1 & He1 & Hm1)].
        assert (Hsame : k4 = k).
        { destruct (reach_pairs _ _ _ _ _ _ Hr _ _ Hk4 Hk) as [H|[H|H]]; [exact H| |]; exfalso.
          - apply (mpls_apart _ _ _ _ _ _ _ _ _ _ H He4 He1 Hm4 Hm1). congruence.
          - apply (mpls_apart _ _ _ _ _ _ _ _ _ _ H He1 He4 Hm1 Hm4). congruence. }
        subst k4. rewrite Eo in Eq. apply path_name_inj in Eq as [E6 _].
        destruct Hm4 as (p4 & pl4 & Hp4 & _ & _ & _ & Hr4). destruct Hm1 as (p1 & pl1 & Hp1 & _ & _ & _ & Hr1).
        pose proof (proj2 Hn _ _ _ _ _ _ Hp1 Hp4 Hr1 Hr4 E6) as ->. congruence.
      - intros (e & rn & v & (k & Hk & J) & -> & -> & -> & Hro). destruct (C2 k Hk) as [(e1 & e2 & Hc)|(e1 & rn1 & v1 & ip1 & Hc)].
        + exfalso. destruct Hc as [Hen _]. destruct J as [[J1 J2]|[J1 J2]], Hen as [[H1 H2]|[H1 H2]].
          * exact (end_not_mpls _ _ _ _ _ H2 J2).
          * exact (end_not_mpls _ _ _ _ _ H1 J2).
          * exact (end_not_mpls _ _ _ _ _ H1 J1).
          * exact (end_not_mpls _ _ _ _ _ H2 J1).
        + pose proof (tunnel_sets _ _ _ _ _ Hc) as [Es _]. pose proof Hc as (Hen & Hro1 & _).
          assert (X : e = e1 /\ rn = rn1 /\ v = v1).
          { destruct J as [[J1 J2]|[J1 J2]], Hen as [[H1 H2]|[H1 H2]].
            - split; [exact (end_fun _ _ _ _ J1 H1)|exact (mpls_fun _ _ _ _ _ _ J2 H2)].
            - exfalso. exact (end_not_mpls _ _ _ _ _ J1 H1).
            - exfalso. exact (end_not_mpls _ _ _ _ _ H1 J1).
            - split; [exact (end_fun _ _ _ _ J2 H2)|exact (mpls_fun _ _ _ _ _ _ J1 H1)]. }
          destruct X as (<- & <- & <-). assert (ip1 = ip) as -> by (unfold router_of in *; congruence).
          assert (Y : forall x, In x (tun_sets (k_id k) e (path_name rn net v) ip (path_name net rn v)) -> In x d).
          { intros x Hx. apply (C1 k _ Hk). rewrite Es. exact Hx. }
          exists (k_id k). unfold tun_sets in Y. unfold rswi, lsp in Y. cbn [app] in Y.
          repeat split; apply Y; rewrite in_app_iff; cbn [In]; tauto.
    Qed.

    (** nothing of a link stays on the units of the interfaces *)
    Theorem mx_units p u r : In ("interfaces" :: p :: "unit" :: u :: r) d -> In ("interfaces" :: p :: "unit" :: u :: r) d0 \/
      exists k e, In k ks /\ has_end k e /\ ((e = CPort p /\ u = "0") \/ exists v, e = CVlan p v /\ u = py_str v).
    Proof.
      destruct mx_config as (C1 & C2 & C3 & C4). intros H. apply unit_exact in H as [H|(k & Hk & H)]; [left; exact H|right].
      destruct (good_parts k (C2 k Hk)) as (es & ps & ds & Hpr & He & Hs & _). rewrite Forall_forall in He. apply Hs in H.
      destruct H as [(e & Hie & H)|H].
      - exists k, e. split; [exact Hk|]. split; [exact (He e Hie)|]. destruct e as [p'|p' v]; cbn [e_sets] in H; unfold port_sets, vlan_sets in H; cbn [In] in H;
          repeat destruct H as [H|H]; try discriminate H; try contradiction; injection H as <- <- _; [left; auto|right; eauto..].
      - destruct (protos_head _ _ _ Hpr) as [Hh _]. destruct (Hh _ H) as (x & E). discriminate E.
    Qed.
  End Run.

  Lemma mx_teardown_total k cs : mx_may k -> setup_of k = Ok cs -> exists cs', teardown_of k = Ok cs'.
  Proof.
    intros [Hw Hk] Hs. destruct (mx_made k cs Hw Hk Hs) as [(e & e' & _ & cs1 & cs' & _ & H & _)|(e & rn & v & ip & _ & _ & cs1 & cs' & ds & _ & H & _)]; eauto.
  Qed.
End MX.
