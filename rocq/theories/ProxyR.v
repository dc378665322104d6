(** Lemmas: the JavaScript client of the proxy program. *)
From Verif Require Import Base State Layout Constr Ext World Proc Borsh Proxy Client Bridge Js Rs BridgeC ProxyC BaseL Spec SpecB SpecC SpecE SpecH SpecI SpecP SpecL SpecM SpecQ SpecY SpecJ BorshL ExactL ProxyL ProxyN ProxyO ProxyQ JsL BridgeQ.
From Coq Require Import Strings.Byte.

Lemma js_find_proxied_iff e me stub k : js_find_proxied e me stub = Some k <-> exists bump, canonical (e_cpa e) me (pk_bytes stub) k bump.
Proof. apply js_pda_iff. cbn [concat]. now rewrite app_nil_r. Qed.
Lemma js_proxied_data_wr name : wr (js_proxied_data name) (fits name) (write_proxy name).
Proof.
  intro b. unfold js_proxied_data. pose proof (wr_str32 name) as W. unfold jseq. change (ju 1 0) with (Some [x00]). split.
  - intro H. destruct (jstr32 name) as [s|] eqn:E; [|discriminate]. destruct (proj1 (W s) eq_refl) as [E2 ->]. apply Some_inj in H. split; [exact E2|]. rewrite <- H, app_nil_r. reflexivity.
  - intros [F ->]. rewrite (proj2 (W _) (conj F eq_refl)), app_nil_r. reflexivity.
Qed.

(** ** Create *)
Section Create.
Variables (pe : penv) (e : env) (me : pubkey) (c : jctx) (i : jproxied) (name : bytes) (metas : list ainfo) (d : bytes) (w : world) (asset : pubkey) (bump : byte).
Hypotheses (He : env_ok e) (Hz : e_prog e <> pk_zero) (Hs : sized w) (Ht : small_template pe) (Hn : text_ok name) (Hd : data (w asset) = [])
  (HC : canonical (e_cpa e) me (pk_bytes (jp_stub i)) asset bump) (HA : jp_asset i = None \/ jp_asset i = Some asset)
  (HS : jp_sys i = None \/ jp_sys i = Some pk_zero) (HN : jp_nifty i = None \/ jp_nifty i = Some (e_prog e)) (HP : jp_payer i <> Some me) (Hm : me <> pk_zero)
  (HM : js_proxied_create e me c i = Some metas) (HD : js_proxied_data name = Some d).
Definition made : list ainfo :=
  [mkInfo asset false true; mkInfo (jp_stub i) true false; mkInfo (jp_owner i) false false; mkInfo (jor (jp_auth i) (jc_identity c)) true false;
   jmeta me true (option_map jsigner (jp_payer i)); jmeta me false (jsys (jp_payer i) (jp_sys i)); mkInfo (e_prog e) false false].
Definition made_sys : option pubkey := match jp_sys i, jp_payer i with Some s, _ => Some s | None, Some _ => Some pk_zero | None, None => None end.
Lemma made_is : metas = made.
Proof using HC HA HN HM.
  unfold js_proxied_create in HM. assert (E : jelse (jp_asset i) (js_find_proxied e me (jp_stub i)) = Some asset).
  { unfold jelse. destruct HA as [->| ->]; [|reflexivity]. apply js_find_proxied_iff. eauto. }
  rewrite E in HM. apply Some_inj in HM. rewrite <- HM. unfold made. destruct HN as [->| ->]; reflexivity.
Qed.
Lemma made_args : arg metas 0 asset /\ arg metas 1 (jp_stub i) /\ arg metas 2 (jp_owner i) /\ arg metas 3 (jor (jp_auth i) (jc_identity c)) /\
  maybe_at me metas 4 (jp_payer i) /\ maybe_at me metas 5 made_sys /\ arg metas 6 (e_prog e).
Proof using HC HA HN HM HP HS Hm.
  rewrite made_is. unfold made. split; [eexists; split; reflexivity|]. split; [eexists; split; reflexivity|]. split; [eexists; split; reflexivity|]. split; [eexists; split; reflexivity|].
  split; [destruct (jp_payer i); cbn [maybe_at]; [split; [eexists; split; reflexivity|congruence]|eexists; split; reflexivity]|].
  split; [|eexists; split; reflexivity]. unfold made_sys. destruct (jp_sys i) as [s|] eqn:E; [|destruct (jp_payer i)]; cbn [maybe_at].
  - split; [eexists; split; reflexivity|]. destruct HS as [Q|Q]; congruence.
  - split; [eexists; split; reflexivity|congruence].
  - eexists. split; reflexivity.
Qed.
Lemma data_is : d = write_proxy name.
Proof using HD. exact (proj2 (proj1 (js_proxied_data_wr name d) HD)). Qed.
Lemma made_signs : signs metas (jor (jp_auth i) (jc_identity c)) /\ signs metas (jp_stub i) /\ mentions metas (e_prog e) /\ writes metas asset /\
  forall p, jp_payer i = Some p -> signs metas p /\ writes metas p.
Proof using HC HA HN HM.
  rewrite made_is. unfold made. split; [eapply (signs_nth _ 3); reflexivity|]. split; [eapply (signs_nth _ 1); reflexivity|]. split; [eapply (mentions_nth _ 6); reflexivity|].
  split; [eapply (writes_nth _ 0); reflexivity|]. intros p ->. split; [eapply (signs_nth _ 4); reflexivity|eapply (writes_nth _ 4); reflexivity].
Qed.
Lemma js_birth : plain_at e w (jp_owner i) -> (forall p, jp_payer i = Some p -> plain_at e w p) -> plain_at e w pk_zero -> plain_at e w (e_prog e) ->
  goes (proxy_entry pe e me metas w d) <-> birth_affordable e pe w asset (jp_payer i).
Proof using He Hz Hs Ht Hn Hd HC HA HS HN HP Hm HM HD.
  intros P1 P2 P3 P4. rewrite data_is. destruct made_args as (A0 & A1 & A2 & A3 & A4 & A5 & A6). destruct made_signs as (S1 & S2 & S3 & S4 & S5).
  assert (PS : made_sys = None \/ made_sys = Some pk_zero) by (unfold made_sys; destruct HS as [-> | ->]; [destruct (jp_payer i)|]; auto).
  rewrite (birth_goes pe e me metas w name asset (jp_stub i) (jp_owner i) (jor (jp_auth i) (jc_identity c)) (e_prog e) (jp_payer i) made_sys He Hz Hs Ht Hn Hd A0 A1 A2 A3 A4 A5 A6 P1).
  - unfold births, can_birth, birth_affordable. split.
    + intros (_ & _ & _ & _ & _ & B1 & B2 & B3 & B4 & _ & p & Ep & N1 & N2 & _ & _ & B5 & B6 & B7). eauto 14.
    + intros (B1 & B2 & B3 & B4 & p & Ep & N1 & N2 & B5 & B6 & B7). destruct (S5 p Ep) as [S6 S7].
      split; [exact S1|]. split; [exact S2|]. split; [exact S3|]. split; [exact S4|]. split; [eauto|]. split; [exact B1|]. split; [exact B2|]. split; [exact B3|]. split; [exact B4|].
      split; [unfold made_sys; rewrite Ep; destruct HS as [-> | ->]; reflexivity|]. exists p. auto 12.
  - intros p [Q|Q]; [now apply P2|]. destruct PS as [R|R]; [congruence|]. assert (p = pk_zero) as -> by congruence. exact P3.
  - exact P4.
Qed.
Lemma js_born : lam_ok w -> forall w', proxy_entry pe e me metas w d = Ok w' ->
  exists pb, in_care pe e me w' asset pb 0 /\ sub pb 65 32 = pk_bytes (jor (jp_auth i) (jc_identity c)) /\
    s_owner (data (w' asset)) = pk_bytes (jp_owner i) /\ s_name (data (w' asset)) = name_field name /\ ~ locked (data (w' asset)) /\ s_group (data (w' asset)) = no_key /\
    (forall k, k <> asset -> data (w' k) = data (w k) /\ acct_owner (w' k) = acct_owner (w k)) /\ sized w' /\ lam_ok w'.
Proof using He Hz Hs Ht Hn Hd HC HA HS HN HP Hm HM HD.
  intros Hl w' H. rewrite data_is in H. destruct made_args as (A0 & A1 & A2 & A3 & A4 & A5 & A6).
  destruct (birth_effect pe e me metas w name asset (jp_stub i) (jp_owner i) (jor (jp_auth i) (jc_identity c)) (e_prog e) (jp_payer i) made_sys He Hz Hs Ht Hn Hd A0 A1 A2 A3 A4 A5 A6 w' Hl H)
    as (pb & B1 & _ & _ & B2 & B3 & B4 & B5 & _ & B6 & _ & B7 & B8 & B9). exists pb. auto 12.
Qed.
End Create.

(** ** Transfer *)
Lemma js_pass e me c asset signer recipient group : let infos := js_proxied_transfer e me c asset signer recipient group in
  arg infos 0 asset /\ arg infos 1 (jor signer (jc_identity c)) /\ arg infos 2 recipient /\ arg infos 3 (jor group me) /\
  mentions (skipn 4 infos) (e_prog e) /\ writes infos asset /\ signs infos (jor signer (jc_identity c)).
Proof.
  cbv zeta. unfold js_proxied_transfer, js_proxied, js_transfer_metas. cbn [app].
  split; [eexists; split; reflexivity|]. split; [eexists; split; reflexivity|]. split; [eexists; split; reflexivity|]. split; [destruct group; (eexists; split; reflexivity)|].
  split; [eapply (mentions_nth _ 0); reflexivity|]. split; [eapply (writes_nth _ 0); reflexivity|eapply (signs_nth _ 1); reflexivity].
Qed.
Lemma js_transfer_data b : js_instr ITransfer = Some b -> b = write_instr ITransfer.
Proof. intro H. vm_compute in H. apply Some_inj in H. rewrite <- H. reflexivity. Qed.
Lemma js_pass_goes pe e me c w asset signer recipient group pb n b : let from := jor signer (jc_identity c) in
  env_ok e -> e_prog e <> pk_zero -> e_heap_al e mod 8 = 0 -> (4 < e_fuel e)%nat ->
  sized w -> lam_ok w -> small_template pe -> in_care pe e me w asset pb n -> countable (n + 1) -> 0 <= n ->
  plain_at e w from -> plain_at e w recipient -> acct_owner (w (e_prog e)) <> e_prog e -> js_instr ITransfer = Some b ->
  goes (proxy_entry pe e me (js_proxied_transfer e me c asset signer recipient group) w b) <->
  (forall k, In k [asset; from; recipient] -> acct_owner (w k) = e_prog e -> ~ locked (data (w k))) /\
  may_pass_on (data (w asset)) from /\ (s_owner (data (w asset)) = pk_bytes recipient \/ s_group (data (w asset)) = no_key).
Proof.
  intros from He Hz Hal Hfu Hs Hl Ht HC Hn1 Hn0 P1 P2 Hpp Hb. apply js_transfer_data in Hb. subst b.
  destruct (js_pass e me c asset signer recipient group) as (A0 & A1 & A2 & A3 & M & W & S). fold from in A1, S.
  rewrite (pass_goes pe e me _ w asset from recipient (jor group me) pb n He Hz Hal Hfu Hs Hl Ht HC Hn1 Hn0 A0 A1 A2 A3 P1 P2 Hpp). unfold passes. tauto.
Qed.

(** ** Holder to holder *)
Lemma js_chain e me c asset pb pe : env_ok e -> e_prog e <> pk_zero -> e_heap_al e mod 8 = 0 -> (4 < e_fuel e)%nat -> small_template pe ->
  forall r w from n, sized w -> lam_ok w -> in_care pe e me w asset pb n -> 0 <= n -> countable (n + zlen r) ->
  acct_owner (w (e_prog e)) <> e_prog e -> ~ locked (data (w asset)) -> s_group (data (w asset)) = no_key ->
  s_owner (data (w asset)) = pk_bytes from -> acct_owner (w from) <> e_prog e ->
  Forall (fun x => same_image pe (fst x) /\ acct_owner (w (snd x)) <> e_prog e) r ->
  exists w', js_passed e me c asset from r w w' /\ in_care pe e me w' asset pb (n + zlen r) /\ s_owner (data (w' asset)) = pk_bytes (last_holder from r) /\
    same_terms (data (w asset)) (data (w' asset)) /\ (forall k, zlen (data (w' k)) = zlen (data (w k))) /\ (forall k, k <> asset -> data (w' k) = data (w k)).
Proof.
  intros He Hz Hal Hfu Ht. induction r as [|[pe' to] r IH]; intros w from n Hs Hl HC Hn0 Hn Hpp Hlk Hg Ho Hf HF.
  - exists w. split; [constructor|]. unfold zlen in *. cbn [length] in *. rewrite Z.add_0_r. unfold same_terms. auto 12.
  - assert (ZR : zlen ((pe', to) :: r) = 1 + zlen r) by (unfold zlen; cbn [length]; lia). assert (ZP : 0 <= zlen r) by (unfold zlen; lia).
    rewrite ZR in *. apply Forall_cons_iff in HF as [[HI Hto] HF]. cbn [fst snd] in HI, Hto.
    pose proof (proj1 (in_care_image _ _ e me w asset pb n HI) HC) as HC'. pose proof (same_image_small _ _ HI Ht) as Ht'.
    assert (Hn1 : countable (n + 1)) by (unfold countable in *; lia).
    assert (P1 : plain_at e w from) by (intro Q; contradiction). assert (P2 : plain_at e w to) by (intro Q; contradiction).
    destruct (proj2 (js_pass_goes pe' e me c w asset (Some from) to None pb n _ He Hz Hal Hfu Hs Hl Ht' HC' Hn1 Hn0 P1 P2 Hpp eq_refl)) as [w1 H1].
    { split; [intros k [<-|[<-|[<-|[]]]] Q; [assumption|contradiction|contradiction]|]. split; [left; assumption|right; assumption]. }
    destruct (js_pass e me c asset (Some from) to None) as (A0 & A1 & A2 & A3 & _).
    destruct (pass_effect pe' e me _ w asset from to me pb n He Hz Hal Hfu Hs Hl Ht' HC' Hn1 Hn0 A0 A1 A2 A3 P1 P2 Hpp w1 H1) as (C1 & O1 & T1 & Z1 & W1 & F1 & S1 & L1).
    apply (in_care_image _ _ e me w1 asset pb (n + 1) HI) in C1. pose proof T1 as (Q1 & Q2 & _ & _ & Q5 & _).
    destruct (IH w1 to (n + 1) S1 L1 C1 ltac:(lia) ltac:(replace (n + 1 + zlen r) with (n + (1 + zlen r)) by lia; exact Hn) ltac:(now rewrite W1)
      ltac:(unfold locked in *; rewrite Q1, Q2; assumption) ltac:(now rewrite Q5) O1 ltac:(now rewrite W1)
      ltac:(eapply Forall_impl; [|exact HF]; intros x [X1 X2]; now rewrite W1)) as (w' & R & C' & O' & T' & Z' & F').
    exists w'. split; [econstructor; [reflexivity|exact H1|exact R]|]. split; [replace (n + (1 + zlen r)) with (n + 1 + zlen r) by lia; exact C'|].
    split; [rewrite O'; unfold last_holder; cbn [map snd]; f_equal; destruct (map snd r) eqn:E; [reflexivity|]|].
    { cbn [last]. clear. revert p. induction l as [|y l IHl]; intro x; [reflexivity|]. cbn. cbn in IHl. apply IHl. }
    split; [unfold same_terms in *; intuition congruence|]. split; [intro k; rewrite Z'; apply Z1|intros k N; rewrite F' by assumption; apply F1, N].
Qed.
Lemma js_life pe e me c i name metas d w asset bump : env_ok e -> e_prog e <> pk_zero -> e_heap_al e mod 8 = 0 -> (4 < e_fuel e)%nat -> sized w -> lam_ok w ->
  small_template pe -> text_ok name -> data (w asset) = [] ->
  canonical (e_cpa e) me (pk_bytes (jp_stub i)) asset bump -> jp_asset i = None \/ jp_asset i = Some asset ->
  jp_sys i = None \/ jp_sys i = Some pk_zero -> jp_nifty i = None \/ jp_nifty i = Some (e_prog e) -> jp_payer i <> Some me -> me <> pk_zero ->
  js_proxied_create e me c i = Some metas -> js_proxied_data name = Some d ->
  birth_affordable e pe w asset (jp_payer i) -> (forall k, In k [jp_owner i; pk_zero; e_prog e] -> acct_owner (w k) <> e_prog e) -> e_prog e <> asset -> jp_owner i <> asset ->
  forall r, zlen r <= 9999999999999 -> Forall (fun x => same_image pe (fst x) /\ acct_owner (w (snd x)) <> e_prog e /\ snd x <> asset) r ->
  exists w1 w2, proxy_entry pe e me metas w d = Ok w1 /\ js_passed e me c asset (jp_owner i) r w1 w2 /\
    s_owner (data (w2 asset)) = pk_bytes (last_holder (jp_owner i) r) /\ s_name (data (w2 asset)) = name_field name /\ exists pb, in_care pe e me w2 asset pb (zlen r).
Proof.
  intros He Hz Hal Hfu Hs Hl Ht Hn Hd HC HA HS HN HP Hm HM HD HB HW Na No r Hr HF.
  assert (PL : forall k, In k [jp_owner i; pk_zero; e_prog e] -> plain_at e w k) by (intros k Hk Q; now apply HW in Hk).
  destruct (proj2 (js_birth pe e me c i name metas d w asset bump He Hz Hs Ht Hn Hd HC HA HS HN HP Hm HM HD (PL _ (or_introl eq_refl))
    ltac:(intros p Ep Q; destruct HB as (_ & _ & _ & _ & p' & Ep' & _ & _ & O & _); assert (p' = p) as -> by congruence; congruence)
    (PL _ (or_intror (or_introl eq_refl))) (PL _ (or_intror (or_intror (or_introl eq_refl))))) HB) as [w1 H1].
  destruct (js_born pe e me c i name metas d w asset bump He Hz Hs Ht Hn Hd HC HA HS HN HP Hm HM HD Hl w1 H1) as (pb & B1 & _ & B3 & B4 & B5 & B6 & B7 & B8 & B9).
  destruct (js_chain e me c asset pb pe He Hz Hal Hfu Ht r w1 (jp_owner i) 0 B8 B9 B1) as (w2 & R & C & O & T & _).
  - lia.
  - unfold countable. unfold zlen in *. lia.
  - rewrite (proj2 (B7 _ Na)). apply HW. cbn. auto.
  - exact B5.
  - exact B6.
  - exact B3.
  - rewrite (proj2 (B7 _ No)). apply HW. cbn. auto.
  - eapply Forall_impl; [|exact HF]. intros x (X1 & X2 & X3). split; [exact X1|]. now rewrite (proj2 (B7 _ X3)).
  - exists w1, w2. split; [exact H1|]. split; [exact R|]. split; [exact O|]. split; [|exists pb; exact C].
    rewrite <- B4. unfold same_terms in T. intuition congruence.
Qed.

(** ** Update *)
Lemma js_rename pe pe' e me c w asset auth buffer group payer sysp pb n u b : let who := jor auth (jc_identity c) in
  env_ok e -> e_prog e <> pk_zero -> e_heap_al e mod 8 = 0 -> (4 < e_fuel e)%nat ->
  sized w -> lam_ok w -> in_care pe e me w asset pb n -> named (IUpdate u) -> js_instr (IUpdate u) = Some b -> acct_owner (w (e_prog e)) <> e_prog e ->
  goes (proxy_entry pe' e me (js_proxied_update e me c asset auth buffer group payer sysp) w b) <-> sub pb 65 32 = pk_bytes who /\ who <> pk_zero.
Proof.
  intros who He Hz Hal Hfu Hs Hl HC HN Hb Hpp. apply js_instr_iff in Hb as [Hu ->]; [|exact HN].
  set (infos := js_proxied_update e me c asset auth buffer group payer sysp).
  assert (A : exists a2 a3 a4 a5, arg infos 0 asset /\ arg infos 1 who /\ arg infos 2 a2 /\ arg infos 3 a3 /\ arg infos 4 a4 /\ arg infos 5 a5).
  { unfold infos, js_proxied_update, js_proxied, js_update_metas. cbn [app]. do 4 eexists. repeat split; (eexists; split; reflexivity). }
  destruct A as (a2 & a3 & a4 & a5 & A0 & A1 & A2 & A3 & A4 & A5).
  rewrite (rename_goes pe pe' e me infos w asset who a2 a3 a4 a5 pb n u He Hz Hal Hfu Hs Hl HC Hu A0 A1 A2 A3 A4 A5 Hpp). unfold renames.
  assert (M : mentions (skipn 6 infos) (e_prog e)) by (eapply (mentions_nth _ 0); reflexivity). assert (W : writes infos asset) by (eapply (writes_nth _ 0); reflexivity).
  assert (S : signs infos who) by (eapply (signs_nth _ 1); reflexivity). tauto.
Qed.
(** ** Everything else is passed on *)
Lemma js_forward pe e me w a r i b l pb w' : named i -> js_instr i = Some b -> i <> ITransfer -> (forall u, i <> IUpdate u) -> forwardable i ->
  well_formed (data (w (ai_key a))) l -> lookup XProxy (ext_list l) = Some pb -> proxies e me pb (ai_key a) -> let infos := js_proxied e (a :: r) in
  proxy_entry pe e me infos w b = Ok w' <-> process (in_cpi e) (first_signs infos) w i = Ok w' /\ bounded_growth infos w w'.
Proof.
  intros HN Hb N1 N2 Hf W L P infos. apply js_instr_iff in Hb as [Hi ->]; [|exact HN]. rewrite (proxy_forwards pe e me infos w i Hi N1 N2).
  unfold infos, js_proxied. cbn [app]. apply (iface_forward e me a _ w i w' l pb Hi Hf W L P).
  exists (mkInfo (e_prog e) false false). split; [right; apply in_app_iff; right; now left|reflexivity].
Qed.
Lemma js_no_payer pe e me c i name metas d w asset bump : env_ok e -> e_prog e <> pk_zero -> sized w -> small_template pe -> text_ok name -> data (w asset) = [] ->
  canonical (e_cpa e) me (pk_bytes (jp_stub i)) asset bump -> jp_asset i = None \/ jp_asset i = Some asset ->
  jp_sys i = None \/ jp_sys i = Some pk_zero -> jp_nifty i = None \/ jp_nifty i = Some (e_prog e) -> jp_payer i = None -> me <> pk_zero ->
  js_proxied_create e me c i = Some metas -> js_proxied_data name = Some d ->
  plain_at e w (jp_owner i) -> plain_at e w pk_zero -> plain_at e w (e_prog e) -> forall w', proxy_entry pe e me metas w d <> Ok w'.
Proof.
  intros He Hz Hs Ht Hn Hd HC HA HS HN HP Hm HM HD P1 P2 P3 w' H.
  assert (G : goes (proxy_entry pe e me metas w d)) by (eexists; exact H).
  apply (js_birth pe e me c i name metas d w asset bump He Hz Hs Ht Hn Hd HC HA HS HN ltac:(rewrite HP; discriminate) Hm HM HD P1 ltac:(rewrite HP; discriminate) P2 P3) in G.
  destruct G as (_ & _ & _ & _ & p & Ep & _). congruence.
Qed.
Lemma js_forwards pe e me w a r i b l pb w' : named i -> js_instr i = Some b -> i <> ITransfer -> (forall u, i <> IUpdate u) -> (forall s, i <> IResize s) ->
  well_formed (data (w (ai_key a))) l -> lookup XProxy (ext_list l) = Some pb -> proxies e me pb (ai_key a) -> let infos := js_proxied e (a :: r) in
  proxy_entry pe e me infos w b = Ok w' <-> process (in_cpi e) (first_signs infos) w i = Ok w' /\ bounded_growth infos w w'.
Proof. intros HN Hb N1 N2 N3. apply js_forward; try assumption. destruct i; try exact I. exact (N3 s eq_refl). Qed.
