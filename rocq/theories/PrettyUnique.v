(** * PrettyUnique: the output of pp determines what was printed. *)
From Coq Require Import ZifyBool ZifyNat ZifyN Permutation.
From Verif Require Import PyBase BaseFacts Types Texts TextFacts Tools Pretty Decoder Encoder EncoderFacts PrettyFacts PrettyFacts2 PrettyExact.
Ltac Zify.zify_post_hook ::= Z.div_mod_to_equations.

(** ** repr is uniquely readable *)
Lemma hexdig_inj a b : (a < 16)%N -> (b < 16)%N -> hexdig_lower a = hexdig_lower b -> a = b.
Proof. intros Ha Hb. unfold hexdig_lower. destruct (N.ltb_spec a 10), (N.ltb_spec b 10); lia. Qed.
Lemma hex2_read a b x y : (a < 256)%N -> (b < 256)%N -> hex2 a ++ x = hex2 b ++ y -> a = b /\ x = y.
Proof.
  intros Ha Hb [= H1 H2 H3]. apply hexdig_inj in H1; [|lia|lia]. apply hexdig_inj in H2; [|lia|lia]. split; [lia|assumption].
Qed.
Lemma hex4_read a b x y : (a < 65536)%N -> (b < 65536)%N -> hex4 a ++ x = hex4 b ++ y -> a = b /\ x = y.
Proof.
  unfold hex4. intros Ha Hb H. rewrite <- !app_assoc in H. apply hex2_read in H as [H1 H]; [|lia|lia].
  apply hex2_read in H as [H2 H]; [|lia|lia]. split; [lia|assumption].
Qed.
Lemma hex8_read a b x y : (a < 4294967296)%N -> (b < 4294967296)%N -> hex8 a ++ x = hex8 b ++ y -> a = b /\ x = y.
Proof.
  unfold hex8. intros Ha Hb H. rewrite <- !app_assoc in H. apply hex4_read in H as [H1 H]; [|lia|lia].
  apply hex4_read in H as [H2 H]; [|lia|lia]. split; [lia|assumption].
Qed.
(** How a character is shown: as it is, or by a backslash, a letter and digits. *)
Inductive shown_as (q c : N) : pystr -> Prop :=
| AsIs : c <> q -> c <> 92%N -> (32 <= c)%N -> shown_as q c [c]
| AsEsc : c = q \/ c = 92%N -> shown_as q c [92%N; c]
| AsTab : c = 9%N -> shown_as q c [92%N; 116%N]
| AsLf : c = 10%N -> shown_as q c [92%N; 110%N]
| AsCr : c = 13%N -> shown_as q c [92%N; 114%N]
| AsX : (c < 256)%N -> shown_as q c (92%N :: 120%N :: hex2 c)
| AsU : (c < 65536)%N -> shown_as q c (92%N :: 117%N :: hex4 c)
| AsUU : (c < 4294967296)%N -> shown_as q c (92%N :: 85%N :: hex8 c).
Lemma repr_char_as E q c : (c < 1114112)%N -> shown_as q c (repr_char E q c).
Proof.
  intro Hc. unfold repr_char, esc.
  destruct ((c =? q) || (c =? 92))%N eqn:H1; [apply AsEsc; lia|].
  destruct (N.eqb_spec c 9); [now apply AsTab|]. destruct (N.eqb_spec c 10); [now apply AsLf|]. destruct (N.eqb_spec c 13); [now apply AsCr|].
  destruct ((c <? 32) || (c =? 127))%N eqn:H2; [apply AsX; lia|].
  destruct (c <? 127)%N eqn:H3; [apply AsIs; lia|]. destruct (u_printable E c); [apply AsIs; lia|].
  destruct (N.ltb_spec c 256); [now apply AsX|]. destruct (N.ltb_spec c 65536); [now apply AsU|]. apply AsUU. lia.
Qed.
Lemma repr_byte_as q c : (c < 256)%N -> shown_as q c (repr_byte q c).
Proof.
  intro Hc. unfold repr_byte, esc.
  destruct ((c =? q) || (c =? 92))%N eqn:H1; [apply AsEsc; lia|].
  destruct (N.eqb_spec c 9); [now apply AsTab|]. destruct (N.eqb_spec c 10); [now apply AsLf|]. destruct (N.eqb_spec c 13); [now apply AsCr|].
  destruct ((c <? 32) || (127 <=? c))%N eqn:H2; [apply AsX; lia|]. apply AsIs; lia.
Qed.
Lemma shown_as_read q c s c' s' x y : q = 39%N \/ q = 34%N -> shown_as q c s -> shown_as q c' s' -> s ++ x = s' ++ y -> c = c' /\ x = y.
Proof.
  intros Hq [H1 H2 H3|H1|H1|H1|H1|H1|H1|H1] [H1' H2' H3'|H1'|H1'|H1'|H1'|H1'|H1'|H1'] H; cbn [app] in H;
    assert (A0 := f_equal (fun l => nth 0 l 0%N) H); assert (A1 := f_equal (fun l => nth 1 l 0%N) H); assert (B1 := f_equal (@tl N) H); assert (B2 := f_equal (@skipn N 2) H);
    cbn [nth tl skipn] in A0, A1, B1, B2; clear H; try lia; try (split; [lia|assumption]);
    [apply hex2_read in B2|apply hex4_read in B2|apply hex8_read in B2]; auto.
Qed.
Lemma shown_as_head q c s x y : q = 39%N \/ q = 34%N -> shown_as q c s -> s ++ x = q :: y -> False.
Proof.
  intros Hq [H1 H2 H3|H1|H1|H1|H1|H1|H1|H1] H; cbn [app] in H; injection H as H _; lia.
Qed.
Lemma quoted_read q (f : N -> pystr) s s' x y : q = 39%N \/ q = 34%N ->
  (forall c, In c s -> shown_as q c (f c)) -> (forall c, In c s' -> shown_as q c (f c)) ->
  flat_map f s ++ q :: x = flat_map f s' ++ q :: y -> s = s' /\ x = y.
Proof.
  intro Hq. revert s'. induction s as [|c s IH]; intros [|c' s'] Hs Hs' H.
  - cbn in H. injection H as H. auto.
  - cbn [flat_map] in H. rewrite <- app_assoc in H. symmetry in H. apply shown_as_head with (c := c') in H; [destruct H|assumption|apply Hs'; now left].
  - cbn [flat_map] in H. rewrite <- app_assoc in H. apply shown_as_head with (c := c) in H; [destruct H|assumption|apply Hs; now left].
  - cbn [flat_map] in H. rewrite <- !app_assoc in H. apply shown_as_read with (q := q) (c := c) (c' := c') in H as [<- H];
      [|assumption|apply Hs; now left|apply Hs'; now left].
    apply IH in H as [<- H]; [auto|intros; apply Hs; now right|intros; apply Hs'; now right].
Qed.
Lemma map_inj {A B} (f : A -> B) : (forall a b, f a = f b -> a = b) -> forall l l', map f l = map f l' -> l = l'.
Proof. intros Hf. induction l as [|a l IH]; intros [|b l'] H; try discriminate; [reflexivity|]. injection H as H1 H2. f_equal; auto. Qed.
Lemma pick_quote_or s : pick_quote s = 39%N \/ pick_quote s = 34%N.
Proof. unfold pick_quote. destruct (_ && _); auto. Qed.
Lemma repr_str_read E s s' x y : valid_text s -> valid_text s' -> repr_str E s ++ x = repr_str E s' ++ y -> s = s' /\ x = y.
Proof.
  intros Hs Hs' H. unfold repr_str in H. cbn [app] in H. injection H as Hq H. rewrite <- Hq in H. rewrite <- !app_assoc in H. cbn [app] in H.
  apply (quoted_read (pick_quote s)) in H; [assumption|apply pick_quote_or| |];
    intros c Hc; apply repr_char_as; unfold valid_text in *; rewrite Forall_forall in *; auto.
Qed.
Lemma repr_bytes_read b b' x y : repr_bytes b ++ x = repr_bytes b' ++ y -> b = b' /\ x = y.
Proof.
  intro H. unfold repr_bytes in H. cbn [app] in H. injection H as Hq H. rewrite <- Hq in H. rewrite <- !app_assoc in H. cbn [app] in H.
  apply (quoted_read (pick_quote (map b2n b))) in H as [H1 H2]; [|apply pick_quote_or| |].
  - split; [|assumption]. revert H1. apply map_inj. apply b2n_inj.
  - intros c Hc. apply in_map_iff in Hc as (z & <- & _). apply repr_byte_as. apply b2n_lt.
  - intros c Hc. apply in_map_iff in Hc as (z & <- & _). apply repr_byte_as. apply b2n_lt.
Qed.

(** ** One value *)
Notation valid_obj := ordinary_obj (only parsing).
Definition same_kind (a b : ppobj) : Prop :=
  match a, b with OStr _, OStr _ => True | OBytes _, OBytes _ => True | _, _ => False end.
(** [o] cut into [parts], in order. *)
Definition pieces (o : ppobj) (parts : list ppobj) : Prop :=
  parts <> [] /\ Forall (same_kind o) parts /\ (valid_obj o -> Forall valid_obj parts)
  /\ match o with
     | OStr s => s = flat_map (fun p => match p with OStr x => x | _ => [] end) parts
     | OBytes b => b = flat_map (fun p => match p with OBytes x => x | _ => [] end) parts
     | OOther _ _ => False
     end.
Lemma body_pieces E ind lw o b : valid_obj o -> body_of E ind lw o b ->
  exists parts, pieces o parts /\ b = between (newline ++ spaces ind) (map (repr E) parts).
Proof.
  intros Ho Hb. destruct Hb as [s H|s H|s parts H1 H2 (H3 & H4 & _)|s parts H1 H2 (H3 & H4 & _)|n r]; [clear Ho..|cbn in Ho; contradiction].
  - exists [OStr s]. split; [|reflexivity]. split; [discriminate|]. split; [repeat constructor|]. split; [intro; repeat constructor; assumption|]. cbn. now rewrite app_nil_r.
  - exists [OBytes s]. split; [|reflexivity]. split; [discriminate|]. split; [repeat constructor|]. split; [intro; repeat constructor; assumption|]. cbn. now rewrite app_nil_r.
  - exists (map OStr parts). split; [|now rewrite map_map]. split; [|split; [|split]].
    + intro N. destruct parts; [|discriminate]. subst s. cbn in H2. lia.
    + apply Forall_map. now apply Forall_forall.
    + intro Hv. subst s. cbn in Hv. unfold valid_text in Hv. apply Forall_map. clear -Hv.
      induction parts as [|x parts IH]; constructor; cbn in Hv; apply Forall_app in Hv as [Hv1 Hv2]; [assumption|auto].
    + rewrite <- H3. rewrite flat_map_concat_map, map_map, map_id. reflexivity.
  - exists (map OBytes parts). split; [|now rewrite map_map]. split; [|split; [|split]].
    + intro N. destruct parts; [|discriminate]. subst s. cbn in H2. lia.
    + apply Forall_map. now apply Forall_forall.
    + intros _. apply Forall_map. now apply Forall_forall.
    + rewrite <- H3. rewrite flat_map_concat_map, map_map, map_id. reflexivity.
Qed.
Lemma repr_read E a b x y : valid_obj a -> valid_obj b -> repr E a ++ x = repr E b ++ y -> a = b /\ x = y.
Proof.
  destruct a as [s|b1|n r], b as [s'|b2|n' r']; cbn [repr ordinary_obj]; intros Ha Hb H; try contradiction.
  - apply repr_str_read in H as [-> ->]; auto.
  - exfalso. unfold repr_str, repr_bytes in H. cbn [app] in H. injection H as H _. destruct (pick_quote_or s); lia.
  - exfalso. unfold repr_str, repr_bytes in H. cbn [app] in H. injection H as H _. destruct (pick_quote_or s'); lia.
  - apply repr_bytes_read in H as [-> ->]; auto.
Qed.
(** What follows an entry does not start with a space. *)
Definition no_space (x : pystr) : Prop := match x with c :: _ => c <> 32%N | [] => True end.
Lemma spaces_pos ind : (1 <= ind)%Z -> exists r, spaces ind = 32%N :: r.
Proof. intro H. unfold spaces. destruct (Z.to_nat ind) as [|n] eqn:E; [lia|]. now exists (repeat 32%N n). Qed.
Lemma join_read E ind p1 p2 x y : (1 <= ind)%Z -> p1 <> [] -> p2 <> [] -> Forall valid_obj p1 -> Forall valid_obj p2 -> no_space x -> no_space y ->
  between (newline ++ spaces ind) (map (repr E) p1) ++ newline ++ x = between (newline ++ spaces ind) (map (repr E) p2) ++ newline ++ y ->
  p1 = p2 /\ x = y.
Proof.
  intros Hi. destruct (spaces_pos ind Hi) as [r Hr]. revert p2.
  induction p1 as [|a p1 IH]; intros [|b p2] N1 N2 V1 V2 Hx Hy H; try contradiction. clear N1 N2.
  inversion V1 as [|? ? Va V1']; inversion V2 as [|? ? Vb V2']; subst. cbn [map] in H.
  destruct p1 as [|a' p1], p2 as [|b' p2].
  - cbn [between map] in H. apply repr_read in H as [-> H]; [|assumption|assumption]. injection H as H. auto.
  - cbn [between map] in H. rewrite <- !app_assoc in H. apply repr_read in H as [-> H]; [|assumption|assumption].
    rewrite Hr in H. cbn in H. injection H as H. subst x. cbn in Hx. lia.
  - cbn [between map] in H. rewrite <- !app_assoc in H. apply repr_read in H as [-> H]; [|assumption|assumption].
    rewrite Hr in H. cbn in H. injection H as H. subst y. cbn in Hy. lia.
  - change (between ?s (map ?f (a' :: p1))) with (between s (map f (a' :: p1))) in H.
    assert (J : forall s z w l, between s (z :: w :: l) = z ++ s ++ between s (w :: l)) by reflexivity.
    cbn [map] in H. rewrite !J in H. rewrite <- !app_assoc in H. apply repr_read in H as [-> H]; [|assumption|assumption].
    apply app_inv_head in H. apply app_inv_head in H.
    destruct (IH (b' :: p2)) as [K1 K2]; try discriminate; auto. rewrite K1. auto.
Qed.
Lemma pieces_whole o1 o2 parts : pieces o1 parts -> pieces o2 parts -> o1 = o2.
Proof.
  intros (N & K1 & _ & C1) (_ & K2 & _ & C2). destruct parts as [|a parts]; [contradiction|].
  apply Forall_inv in K1. apply Forall_inv in K2. destruct o1, o2, a; cbn in *; try contradiction; congruence.
Qed.
Lemma value_read E dw lw l1 pr1 o1 b1 l2 pr2 o2 b2 x y : prefix_of E l1 pr1 -> prefix_of E l2 pr2 ->
  body_of E (indent_of dw pr1) lw o1 b1 -> body_of E (indent_of dw pr2) lw o2 b2 ->
  valid_obj l1 -> valid_obj l2 -> valid_obj o1 -> valid_obj o2 -> no_space x -> no_space y ->
  pr1 ++ b1 ++ newline ++ x = pr2 ++ b2 ++ newline ++ y -> same_length l1 l2 /\ o1 = o2 /\ x = y.
Proof.
  intros R1 R2 B1 B2 W1 W2 V1 V2 Hx Hy H. assert (I1 := indent_nonneg dw pr1). assert (I2 := indent_nonneg dw pr2).
  apply body_pieces in B1 as (p1 & P1 & ->); [|assumption]. apply body_pieces in B2 as (p2 & P2 & ->); [|assumption].
  assert (F : forall o p ind, pieces o p -> (5 <= ind)%Z -> exists a z, In a p /\ between (newline ++ spaces ind) (map (repr E) p) ++ newline = repr E a ++ 10%N :: z).
  { intros o p ind (Np & _) _. destruct p as [|a p]; [contradiction|]. destruct p as [|b p].
    - exists a, []. split; [now left|reflexivity].
    - eexists a, _. split; [now left|]. cbn [map between]. rewrite <- !app_assoc. reflexivity. }
  assert (G : forall ind, (5 <= ind)%Z -> between (newline ++ spaces ind) (map (repr E) p1) ++ newline ++ x = between (newline ++ spaces ind) (map (repr E) p2) ++ newline ++ y ->
    o1 = o2 /\ x = y).
  { intros ind Hi H'. apply join_read in H' as [-> ->]; auto.
    - split; [|reflexivity]. eapply pieces_whole; eauto.
    - lia.
    - apply P1.
    - apply P2.
    - now apply P1.
    - now apply P2. }
  destruct R1 as [R1|n1 R1], R2 as [R2|n2 R2].
  - split; [right; auto|]. cbn [app] in H. apply (G _ I1 H).
  - exfalso. destruct (F _ _ _ P1 I1) as (a & z & Ha & Hz). cbn [app] in H. rewrite app_assoc, Hz in H. rewrite <- !app_assoc in H.
    change (written E l2) with (repr E l2) in H. apply repr_read in H as [_ H]; [discriminate| |assumption].
    destruct P1 as (_ & _ & P1 & _). apply P1 in V1. rewrite Forall_forall in V1. auto.
  - exfalso. destruct (F _ _ _ P2 I2) as (a & z & Ha & Hz). cbn [app] in H. rewrite (app_assoc (between _ _) newline y), Hz in H. rewrite <- !app_assoc in H.
    change (written E l1) with (repr E l1) in H. apply repr_read in H as [_ H]; [discriminate|assumption|].
    destruct P2 as (_ & _ & P2 & _). apply P2 in V2. rewrite Forall_forall in V2. auto.
  - rewrite <- !app_assoc in H. change (written E l1) with (repr E l1) in *. change (written E l2) with (repr E l2) in *.
    apply repr_read in H as [Hl H]; [|assumption|assumption]. subst l2. apply app_inv_head in H. split; [now left|]. apply (G _ I1 H).
Qed.

(** ** One entry *)
(** A key pp prints: no space and no colon in it. *)
Definition plain_key (k : pystr) : Prop := k <> [] /\ ~ In 32%N k /\ ~ In 58%N k.
Lemma key_read k k' c c' x y : ~ In 32%N k -> ~ In 58%N k -> ~ In 32%N k' -> ~ In 58%N k' -> c = 32%N \/ c = 58%N -> c' = 32%N \/ c' = 58%N ->
  k ++ c :: x = k' ++ c' :: y -> k = k' /\ c :: x = c' :: y.
Proof.
  intros A1 A2 B1 B2 Hc Hc' H. revert k' B1 B2 H. induction k as [|z k IH]; intros [|z' k'] B1 B2 H; cbn [app] in H.
  - auto.
  - exfalso. injection H as -> _. destruct Hc as [-> | ->]; [apply B1|apply B2]; now left.
  - exfalso. injection H as <- _. destruct Hc' as [-> | ->]; [apply A1|apply A2]; now left.
  - injection H as <- H. apply IH in H as [-> H]; cbn in *; auto.
Qed.
(** The same is shown for [k] of both dicts. *)
Definition alike (k : pystr) (d1 d2 : ppdoc) : Prop :=
  exists v1 v2 l1 l2 o, In (KStr k, v1) d1 /\ In (KStr k, v2) d2 /\ parts_of v1 l1 o /\ parts_of v2 l2 o /\ same_length l1 l2.
Lemma entry_read E sp dw lw d1 d2 k1 k2 e1 e2 x y : plain_key k1 -> plain_key k2 ->
  entry_of E sp dw lw d1 k1 e1 -> entry_of E sp dw lw d2 k2 e2 ->
  (forall k v, In (k, v) d1 -> ordinary v) -> (forall k v, In (k, v) d2 -> ordinary v) ->
  no_space x -> no_space y -> e1 ++ x = e2 ++ y ->
  k1 = k2 /\ x = y /\ alike k1 d1 d2.
Proof.
  intros (N1 & S1 & C1) (N2 & S2 & C2) [v1 l1 o1 de1 pr1 b1 I1 P1 D1 R1 B1] [v2 l2 o2 de2 pr2 b2 I2 P2 D2 R2 B2] W1 W2 Hx Hy H.
  assert (F : forall k de r, description sp dw k de -> exists c z, (c = 32%N \/ c = 58%N) /\ repeat 32%N (3 - length k) ++ de ++ u ": " ++ r = c :: z).
  { intros k de r HD. destruct (3 - length k)%nat; [|cbn; eauto]. destruct HD as [HD|fs desc HD H1 H2]; [change (u ": ") with (58 :: 32 :: [])%N|change (u " ") with [32%N]]; eexists _, _; (split; [|reflexivity]); auto. }
  unfold column in H. rewrite <- !app_assoc in H.
  destruct (F k1 de1 (pr1 ++ b1 ++ newline ++ x) D1) as (c & z & Hc & Ez).
  destruct (F k2 de2 (pr2 ++ b2 ++ newline ++ y) D2) as (c' & z' & Hc' & Ez').
  assert (G : k1 = k2). { rewrite Ez, Ez' in H. apply key_read in H; auto. apply H. }
  subst k2. clear Ez Ez'. rewrite (description_fun _ _ _ _ _ D2 D1) in H. do 4 apply app_inv_head in H.
  destruct (W1 _ _ I1 _ _ P1) as [W1a W1b]. destruct (W2 _ _ I2 _ _ P2) as [W2a W2b].
  apply (value_read E dw lw l1 pr1 o1 b1 l2 pr2 o2 b2) in H as (S & -> & ->); auto.
  repeat split. exists v1, v2, l1, l2, o2. auto 6.
Qed.

(** ** The whole output *)
Lemma entry_head E sp dw lw d k e : plain_key k -> entry_of E sp dw lw d k e -> exists c z, e = c :: z /\ c <> 32%N.
Proof.
  intros (N & S & _) [v l o de pr b _ _ _ _ _]. destruct k as [|c k]; [contradiction|]. eexists c, _. split; [reflexivity|]. intros ->. apply S. now left.
Qed.
Lemma concat_no_space E sp dw lw d ks es : Forall plain_key ks -> Forall2 (entry_of E sp dw lw d) ks es -> no_space (concat es).
Proof.
  intros Hk H. destruct H as [|k e ks es He _]; [exact I|]. apply Forall_inv in Hk. destruct (entry_head _ _ _ _ _ _ _ Hk He) as (c & z & -> & Hc). exact Hc.
Qed.
Lemma entries_read E sp dw lw d1 d2 : (forall k v, In (k, v) d1 -> ordinary v) -> (forall k v, In (k, v) d2 -> ordinary v) ->
  forall ks1 es1, Forall2 (entry_of E sp dw lw d1) ks1 es1 -> Forall plain_key ks1 -> forall ks2 es2, Forall2 (entry_of E sp dw lw d2) ks2 es2 -> Forall plain_key ks2 ->
  concat es1 = concat es2 ->
  ks1 = ks2 /\ Forall (fun k => alike k d1 d2) ks1.
Proof.
  intros W1 W2 ks1 es1 F1. induction F1 as [|k1 e1 ks1 es1 E1 F1 IH]; intros K1 ks2 es2 F2 K2 H; destruct F2 as [|k2 e2 ks2 es2 E2 F2].
  - auto.
  - exfalso. apply Forall_inv in K2. destruct (entry_head _ _ _ _ _ _ _ K2 E2) as (c & z & -> & _). discriminate.
  - exfalso. apply Forall_inv in K1. destruct (entry_head _ _ _ _ _ _ _ K1 E1) as (c & z & -> & _). discriminate.
  - inversion K1 as [|? ? K1a K1b]; inversion K2 as [|? ? K2a K2b]; subst. cbn [concat] in H.
    destruct (entry_read _ _ _ _ _ _ _ _ _ _ _ _ K1a K2a E1 E2 W1 W2 (concat_no_space _ _ _ _ _ _ _ K1b F1) (concat_no_space _ _ _ _ _ _ _ K2b F2) H) as (<- & H' & HP).
    destruct (IH K1b _ _ F2 K2b H') as [<- HF]. auto.
Qed.
Lemma numeric_plain E k : env_ok E -> isnumeric E k = true -> plain_key k.
Proof.
  intros HE Hn. unfold isnumeric in Hn. split; [now intros ->|]. destruct k as [|c k]; [discriminate|]. rewrite forallb_forall in Hn.
  split; intro Hi; apply Hn in Hi; rewrite (proj1 HE) in Hi by lia; discriminate.
Qed.
Lemma shown_plain E sp d ks : env_ok E -> shown_keys E sp d ks -> Forall plain_key ks.
Proof.
  intros HE [h t p ks' Hh Ht Hp Hn]. assert (L : forall k, k = u "h" \/ k = u "t" \/ k = u "p" -> plain_key k).
  { intros k [->|[->| ->]]; (split; [discriminate|split; intros [H|[]]; discriminate H]). }
  apply Forall_forall. intros k Hk. rewrite !in_app_iff in Hk. destruct Hk as [Hk|[Hk|[Hk|Hk]]].
  - apply (header_shown_in _ _ _ _ Hh) in Hk as [-> _]. auto.
  - apply (if_shown_in _ _ _ _ Ht) in Hk as [-> _]. auto.
  - apply (if_shown_in _ _ _ _ Hp) in Hk as [-> _]. auto.
  - apply (proj1 Hn) in Hk as [_ Hk]. eapply numeric_plain; eauto.
Qed.
Lemma pp_injective E sp dw lw d1 d2 out : env_ok E ->
  (forall k v, In (k, v) d1 \/ In (k, v) d2 -> ordinary v) ->
  pp E d1 sp dw lw = (Ok tt, out) -> pp E d2 sp dw lw = (Ok tt, out) ->
  exists ks, shown_keys E sp d1 ks /\ shown_keys E sp d2 ks
    /\ forall k, In k ks -> exists v1 v2 l1 l2 o, In (KStr k, v1) d1 /\ In (KStr k, v2) d2
         /\ parts_of v1 l1 o /\ parts_of v2 l2 o /\ same_length l1 l2.
Proof.
  intros HE HV H1 H2. apply pp_output in H1 as (ks1 & es1 & K1 & F1 & ->). apply pp_output in H2 as (ks2 & es2 & K2 & F2 & H).
  assert (W1 : forall k v, In (k, v) d1 -> ordinary v) by eauto. assert (W2 : forall k v, In (k, v) d2 -> ordinary v) by eauto.
  destruct (entries_read E sp dw lw d1 d2 W1 W2 _ _ F1 (shown_plain _ _ _ _ HE K1) _ _ F2 (shown_plain _ _ _ _ HE K2) H) as [<- HF].
  exists ks1. rewrite Forall_forall in HF. split; [assumption|split; [assumption|exact HF]].
Qed.
