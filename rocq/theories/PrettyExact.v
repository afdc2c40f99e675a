(** * PrettyExact: Pretty.v determines the output of pp, also when it raises. *)
From Coq Require Import ZifyBool ZifyNat ZifyN Permutation.
From Verif Require Import PyBase BaseFacts Types Numerals NumeralFacts Tools Pretty Decoder Encoder EncoderFacts PrettyFacts PrettyFacts2.

Lemma parts_fun v l o l' o' : parts_of v l o -> parts_of v l' o' -> l = l' /\ o = o'.
Proof. intros H1 H2. apply parts_shown in H1 as [-> ->]. apply parts_shown in H2 as [-> ->]. auto. Qed.
Lemma description_fun sp dw k a b : description sp dw k a -> description sp dw k b -> a = b.
Proof.
  intros [H|fs desc H1 H2 H3] [H'|fs' desc' H1' H2' H3']; [reflexivity|lia|lia|].
  assert (fs = fs') by congruence. subst. assert (desc = desc') by congruence. now subst.
Qed.
Lemma body_fun E ind lw o a b : body_of E ind lw o a -> body_of E ind lw o b -> a = b.
Proof.
  intros H1 H2. destruct H1 as [s H|s H|s parts H3 H4 H5|s parts H3 H4 H5|n r]; inversion H2 as [s' H'|s' H'|s' parts' H3' H4' H5'|s' parts' H3' H4' H5'|n' r']; subst;
    try reflexivity; try lia.
  - now rewrite (cut_str_unique _ _ _ _ H5 H5').
  - now rewrite (cut_bytes_unique _ _ _ _ H5 H5').
Qed.
Lemma prefix_fun E l a b : prefix_of E l a -> prefix_of E l b -> a = b.
Proof. intros [H|n H] [H'|n' H']; congruence. Qed.
Lemma entry_fun E sp dw lw d k a b : NoDup (map fst d) -> entry_of E sp dw lw d k a -> entry_of E sp dw lw d k b -> a = b.
Proof.
  intros Hd [v l o de pr bo H1 H2 H3 H4 H5] [v' l' o' de' pr' bo' H1' H2' H3' H4' H5'].
  pose proof (nodup_pair _ _ _ _ Hd H1 H1'). subst v'. destruct (parts_fun _ _ _ _ _ H2 H2'). subst.
  pose proof (prefix_fun _ _ _ _ H4 H4'). subst pr'.
  rewrite (description_fun _ _ _ _ _ H3 H3'), (body_fun _ _ _ _ _ _ H5 H5'). reflexivity.
Qed.
Lemma entries_fun E sp dw lw d ks a b : NoDup (map fst d) ->
  Forall2 (entry_of E sp dw lw d) ks a -> Forall2 (entry_of E sp dw lw d) ks b -> a = b.
Proof.
  intros Hd H. revert b. induction H as [|k e ks es He _ IH]; intros b H2; inversion H2; subst; [reflexivity|].
  f_equal; [eapply entry_fun; eauto|auto].
Qed.
Lemma header_shown_fun sp d a b : header_shown sp d a -> header_shown sp d b -> a = b.
Proof.
  intros [H|fs ml H1 H2 H3 H4|fs ml H1 H2 H3 H4] [H'|fs' ml' H1' H2' H3' H4'|fs' ml' H1' H2' H3' H4']; try reflexivity; try contradiction;
    assert (fs = fs') by congruence; subst; assert (ml = ml') by congruence; lia.
Qed.
Lemma if_shown_fun d k a b : if_shown d k a -> if_shown d k b -> a = b.
Proof. intros [H|H] [H'|H']; try reflexivity; contradiction. Qed.

(** ** The order of the numeric keys *)
Lemma ordered_unique {A} (R : A -> A -> Prop) : (forall a b, R a b -> R b a -> False) ->
  forall l1 l2 : list A, (forall x, In x l1 <-> In x l2) -> NoDup l1 -> NoDup l2 ->
  (forall pre a mid b post, l1 = pre ++ a :: mid ++ b :: post -> R a b) ->
  (forall pre a mid b post, l2 = pre ++ a :: mid ++ b :: post -> R a b) -> l1 = l2.
Proof.
  intros Ras. induction l1 as [|x l1 IH]; intros [|y l2] Hin N1 N2 O1 O2; [reflexivity| | |].
  - exfalso. apply (Hin y). now left.
  - exfalso. apply (Hin x). now left.
  - assert (x = y) as <-.
    { assert (Hx : In x (y :: l2)) by (apply Hin; now left). assert (Hy : In y (x :: l1)) by (apply Hin; now left).
      destruct Hx as [Hx|Hx]; [auto|]. destruct Hy as [Hy|Hy]; [auto|]. exfalso. apply (Ras x y).
      - apply in_split in Hy as (m & q & ->). now apply (O1 [] x m y q).
      - apply in_split in Hx as (m & q & ->). now apply (O2 [] y m x q). }
    inversion N1 as [|? ? A1 B1]; inversion N2 as [|? ? A2 B2]; subst. f_equal. apply IH; auto.
    + intro z. specialize (Hin z). cbn in Hin. split; intro Hz.
      * destruct (proj1 Hin (or_intror Hz)) as [<-|]; [contradiction|assumption].
      * destruct (proj2 Hin (or_intror Hz)) as [<-|]; [contradiction|assumption].
    + intros pre a mid b post ->. apply (O1 (x :: pre) a mid b post eq_refl).
    + intros pre a mid b post ->. apply (O2 (x :: pre) a mid b post eq_refl).
Qed.
Lemma nodup_split_unique {A} (x : A) a b c d : NoDup (a ++ x :: b) -> a ++ x :: b = c ++ x :: d -> a = c /\ b = d.
Proof.
  revert c. induction a as [|y a IH]; intros [|z c] N H; cbn in *.
  - injection H as ->. auto.
  - injection H as <- ->. inversion N as [|? ? Hn _]; subst. exfalso. apply Hn. apply in_or_app. right. now left.
  - injection H as -> <-. inversion N as [|? ? Hn _]; subst. exfalso. apply Hn. apply in_or_app. right. now left.
  - injection H as <- H. inversion N; subst. destruct (IH c); [assumption|assumption|]. now subst.
Qed.
Lemma before_asym {A} (l : list A) x y : NoDup l -> before l x y -> before l y x -> False.
Proof.
  intros N (a & b & c & H1) (a' & b' & c' & H2). assert (N' := N). rewrite H1 in N'.
  rewrite H1 in H2.
  assert (H3 : a ++ x :: b ++ y :: c = (a' ++ y :: b') ++ x :: c') by (rewrite H2, <- app_assoc; reflexivity).
  destruct (nodup_split_unique x _ _ _ _ N' H3) as [E1 E2].
  apply NoDup_remove_2 in N' as N2.
  assert (Hy : In y a) by (rewrite E1; apply in_or_app; right; now left).
  assert (Hy2 : In y (b ++ y :: c)) by (apply in_or_app; right; now left).
  apply in_split in Hy as (p & q & ->). rewrite <- app_assoc in N'. cbn in N'. apply NoDup_remove_2 in N'.
  apply N'. rewrite !in_app_iff. right. right. right. exact Hy2.
Qed.
Lemma before_keys (d : ppdoc) j k d1 v d2 w d3 : d = d1 ++ (KStr j, v) :: d2 ++ (KStr k, w) :: d3 ->
  before (map fst d) (KStr j) (KStr k).
Proof. intros ->. exists (map fst d1), (map fst d2), (map fst d3). rewrite map_app. cbn. rewrite map_app. reflexivity. Qed.
Lemma numbered_fun E d a b : NoDup (map fst d) -> numbered E d a -> numbered E d b -> a = b.
Proof.
  intros Hd (A1 & A2 & A3 & A4) (B1 & B2 & B3 & B4).
  apply (ordered_unique (fun j k => exists m n, int_text E j m /\ int_text E k n /\
    ((m < n)%Z \/ (m = n /\ before (map fst d) (KStr j) (KStr k))))).
  - intros j k (m & n & H1 & H2 & H3) (m' & n' & H1' & H2' & H3').
    assert (m = n') by (eapply int_text_unique; eassumption). assert (n = m') by (eapply int_text_unique; eassumption). subst.
    destruct H3 as [H3|[H3 H4]], H3' as [H3'|[H3' H4']]; try lia. eapply before_asym; eauto.
  - intro k. now rewrite A1, B1.
  - auto.
  - auto.
  - intros pre j mid k post Hs. destruct (A3 j) as [m Hm]; [rewrite Hs; apply in_or_app; right; now left|].
    destruct (A3 k) as [n Hn]; [rewrite Hs; apply in_or_app; right; right; apply in_or_app; right; now left|].
    exists m, n. split; [assumption|]. split; [assumption|].
    destruct (A4 _ _ _ _ _ _ _ Hs Hm Hn) as [H|(H & d1 & v & d2 & w & d3 & H2)]; [now left|right].
    split; [assumption|]. eapply before_keys, H2.
  - intros pre j mid k post Hs. destruct (B3 j) as [m Hm]; [rewrite Hs; apply in_or_app; right; now left|].
    destruct (B3 k) as [n Hn]; [rewrite Hs; apply in_or_app; right; right; apply in_or_app; right; now left|].
    exists m, n. split; [assumption|]. split; [assumption|].
    destruct (B4 _ _ _ _ _ _ _ Hs Hm Hn) as [H|(H & d1 & v & d2 & w & d3 & H2)]; [now left|right].
    split; [assumption|]. eapply before_keys, H2.
Qed.
Lemma shown_keys_fun E sp d a b : NoDup (map fst d) -> shown_keys E sp d a -> shown_keys E sp d b -> a = b.
Proof.
  intros Hd [h t p ks H1 H2 H3 H4] [h' t' p' ks' H1' H2' H3' H4'].
  rewrite (header_shown_fun _ _ _ _ H1 H1'), (if_shown_fun _ _ _ _ H2 H2'), (if_shown_fun _ _ _ _ H3 H3'),
    (numbered_fun _ _ _ _ Hd H4 H4'). reflexivity.
Qed.

Lemma lacks_fun {A} sp k (get : fspec -> option A) name a b : lacks sp k get name a -> lacks sp k get name b -> a = b.
Proof. intros [[H1 H2]|(fs & H1 & H2 & H3)] [[H1' H2']|(fs' & H1' & H2' & H3')]; congruence. Qed.
Lemma described_not_lacks sp dw k de nm : description sp dw k de -> (0 < dw)%Z -> lacks sp k fs_desc (u "desc") nm -> False.
Proof.
  intros Hx Hw Hl. destruct Hx as [Hx|fs desc _ H2 H3]; [lia|]. destruct Hl as [[Hl _]|(fs' & Hl & Hl2 & _)]; congruence.
Qed.
Lemma entry_not_stops E sp dw lw d k e x part : NoDup (map fst d) -> entry_of E sp dw lw d k e -> entry_stops sp dw d k x part -> False.
Proof.
  intros Hd [v l o desc pre body Hv Hp Hx Hpre _] [nm Hw Hl|v' l' o' desc' Hv' Hp' He _].
  - eapply described_not_lacks; eauto.
  - rewrite (nodup_pair _ _ _ _ Hd Hv' Hv) in Hp'. destruct (parts_fun _ _ _ _ _ Hp' Hp) as [-> _]. exact (prefix_sized _ _ _ Hpre He).
Qed.
Lemma entry_stops_fun sp dw d k x part x' part' : entry_stops sp dw d k x part -> entry_stops sp dw d k x' part' -> x = x' /\ part = part'.
Proof.
  intros [nm Hw Hl|v l o desc Hv Hp He Hd] [nm' Hw' Hl'|v' l' o' desc' Hv' Hp' He' Hd'].
  - now rewrite (lacks_fun _ _ _ _ _ _ Hl Hl').
  - destruct (described_not_lacks _ _ _ _ _ Hd' Hw Hl).
  - destruct (described_not_lacks _ _ _ _ _ Hd Hw' Hl').
  - now rewrite (description_fun _ _ _ _ _ Hd Hd').
Qed.

(** ** Success *)
Lemma pp_ok_iff E sp dw lw d out : NoDup (map fst d) ->
  (pp E d sp dw lw = (Ok tt, out)
   <-> exists ks es, shown_keys E sp d ks /\ Forall2 (entry_of E sp dw lw d) ks es /\ out = concat es).
Proof.
  intro Hd. split; [apply pp_output|]. intros (ks & es & Hk & He & ->).
  assert (R : pp_ready E sp dw d).
  { destruct (pp_run E sp dw lw d) as [(ks' & es' & _ & _ & H)|(x & o & H & _)]; [apply (pp_succeeds E sp dw lw d Hd); eauto|].
    exfalso. destruct Hk as [h t p ks Hh Ht Hp Hn].
    destruct H as [nm H1 H2|h' t' p' ks' done k rest es' x part Hh' Ht' Hp' Hn' Hk HF Hw|h' t' p' es' k Hh' Ht' Hp' HF Hs Hk Hi].
    - destruct Hh as [H|fs ml H3 H4 H5 H6|fs ml H3 H4 H5 H6]; [contradiction| |]; destruct H2 as [[H2 _]|(fs' & H2 & H7 & _)]; congruence.
    - assert (Hin : In k (h ++ t ++ p ++ ks)).
      { rewrite (header_shown_fun _ _ _ _ Hh Hh'), (if_shown_fun _ _ _ _ Ht Ht'), (if_shown_fun _ _ _ _ Hp Hp').
        assert (Hin : In k (h' ++ t' ++ p' ++ ks')) by (rewrite Hk; apply in_or_app; right; now left).
        destruct Hn' as [->|Hn']; [|now rewrite (numbered_fun _ _ _ _ Hd Hn Hn')]. rewrite app_nil_r in Hin.
        rewrite !app_assoc. apply in_or_app. left. now rewrite <- app_assoc. }
      apply in_split in Hin as (l1 & l2 & Hin). rewrite Hin in He. apply Forall2_app_inv_l in He as (e1 & e2 & _ & He & _).
      inversion He as [|? ? ? ? Hx _]; subst. eapply entry_not_stops; eauto.
    - destruct (proj1 (proj2 (proj2 Hn)) k) as [n H]; [now apply (proj1 Hn)|]. match goal with N : not_int _ _ |- _ => exact (N n H) end. }
  apply (pp_succeeds E sp dw lw d Hd) in R as [out R]. rewrite R. apply pp_output in R as (ks' & es' & Hk' & He' & ->).
  rewrite (shown_keys_fun _ _ _ _ _ Hd Hk' Hk) in He'. now rewrite (entries_fun _ _ _ _ _ _ _ _ Hd He' He).
Qed.

(** ** Failure *)
(** Where the entries end and the first that cannot be printed follows is unique. *)
Lemma stop_unique E sp dw lw d l1 l2 done k rest es x part done' k' rest' es' x' part' :
  NoDup (map fst d) -> (exists x, l1 = l2 ++ x \/ l2 = l1 ++ x) ->
  l1 = done ++ k :: rest -> l2 = done' ++ k' :: rest' ->
  Forall2 (entry_of E sp dw lw d) done es -> Forall2 (entry_of E sp dw lw d) done' es' ->
  entry_stops sp dw d k x part -> entry_stops sp dw d k' x' part' ->
  es = es' /\ x = x' /\ part = part'.
Proof.
  intros Hd Hx -> -> F F' L L'.
  assert (H : exists x x', done ++ k :: x = done' ++ k' :: x').
  { destruct Hx as [y [H|H]].
    - exists rest, (rest' ++ y). rewrite H, <- app_assoc. reflexivity.
    - exists (rest ++ y), rest'. rewrite H, <- app_assoc. reflexivity. }
  destruct H as (y & y' & H). clear Hx.
  assert (G : done = done' /\ k = k').
  { revert es F done' es' F' H. induction done as [|z done IH]; intros es F [|z' done'] es' F' H.
    - injection H as -> _. auto.
    - injection H as <- _. inversion F' as [|? ? ? ? Hy _]; subst. destruct (entry_not_stops _ _ _ _ _ _ _ _ _ Hd Hy L).
    - injection H as -> _. inversion F as [|? ? ? ? Hy _]; subst. destruct (entry_not_stops _ _ _ _ _ _ _ _ _ Hd Hy L').
    - injection H as <- H. inversion F as [|? ? ? ? _ F1]; inversion F' as [|? ? ? ? _ F2]; subst.
      destruct (IH _ F1 _ _ F2 H) as [-> ->]. auto. }
  destruct G as [<- <-]. split; [eapply entries_fun; eauto|]. eapply entry_stops_fun; eauto.
Qed.
Lemma entries_not_stop E sp dw lw d l done k rest es x part : NoDup (map fst d) -> Forall2 (entry_of E sp dw lw d) l es -> (exists x, l = (done ++ k :: rest) ++ x) ->
  entry_stops sp dw d k x part -> False.
Proof.
  intros Hd F [y ->] L. rewrite <- app_assoc in F. apply Forall2_app_inv_l in F as (e1 & e2 & _ & F & _).
  inversion F as [|? ? ? ? Hy _]; subst. eapply entry_not_stops; eauto.
Qed.
Lemma header_not_lacks sp d h nm : header_shown sp d h -> shows d (u "h") -> lacks sp (u "h") fs_max_len (u "max_len") nm -> False.
Proof.
  intros Hh Hs H2. destruct Hh as [H|fs ml H3 H4 H5 H6|fs ml H3 H4 H5 H6]; [contradiction| |]; destruct H2 as [[H2 _]|(fs' & H2 & H7 & _)]; congruence.
Qed.
Lemma pp_stops_fun E sp dw lw d x out y out' : NoDup (map fst d) ->
  pp_stops E sp dw lw d x out -> pp_stops E sp dw lw d y out' -> x = y /\ out = out'.
Proof.
  intros Hd H H'.
  destruct H as [nm H1 H2|h t p ks done k rest es x part Hh Ht Hp Hn Hk HF Hl|h t p es k Hh Ht Hp HF Hs Hk Hi];
  destruct H' as [nm' H1' H2'|h' t' p' ks' done' k' rest' es' x' part' Hh' Ht' Hp' Hn' Hk' HF' Hl'|h' t' p' es' k' Hh' Ht' Hp' HF' Hs' Hk' Hi'].
  - now rewrite (lacks_fun _ _ _ _ _ _ H2 H2').
  - destruct (header_not_lacks _ _ _ _ Hh' H1 H2).
  - destruct (header_not_lacks _ _ _ _ Hh' H1 H2).
  - destruct (header_not_lacks _ _ _ _ Hh H1' H2').
  - rewrite <- (header_shown_fun _ _ _ _ Hh Hh'), <- (if_shown_fun _ _ _ _ Ht Ht'), <- (if_shown_fun _ _ _ _ Hp Hp') in Hk'.
    assert (X : exists x, h ++ t ++ p ++ ks = (h ++ t ++ p ++ ks') ++ x \/ h ++ t ++ p ++ ks' = (h ++ t ++ p ++ ks) ++ x).
    { destruct Hn as [->|Hn]; [exists ks'; right; now rewrite app_nil_r, <- !app_assoc|].
      destruct Hn' as [->|Hn']; [exists ks; left; now rewrite app_nil_r, <- !app_assoc|].
      exists []. left. now rewrite (numbered_fun _ _ _ _ Hd Hn Hn'), app_nil_r. }
    destruct (stop_unique E sp dw lw d _ _ done k rest es x part done' k' rest' es' x' part' Hd X Hk Hk' HF HF' Hl Hl') as (-> & -> & ->). auto.
  - exfalso. rewrite (header_shown_fun _ _ _ _ Hh Hh'), (if_shown_fun _ _ _ _ Ht Ht'), (if_shown_fun _ _ _ _ Hp Hp') in Hk.
    destruct Hn as [->|Hn].
    + rewrite app_nil_r in Hk. eapply entries_not_stop; [exact Hd|exact HF'| |exact Hl]. exists []. rewrite app_nil_r. exact Hk.
    + destruct (proj1 (proj2 (proj2 Hn)) k') as [n H]; [now apply (proj1 Hn)|]. match goal with N : not_int _ _ |- _ => exact (N n H) end.
  - destruct (header_not_lacks _ _ _ _ Hh H1' H2').
  - exfalso. rewrite (header_shown_fun _ _ _ _ Hh' Hh), (if_shown_fun _ _ _ _ Ht' Ht), (if_shown_fun _ _ _ _ Hp' Hp) in Hk'.
    destruct Hn' as [->|Hn'].
    + rewrite app_nil_r in Hk'. eapply entries_not_stop; [exact Hd|exact HF| |exact Hl']. exists []. rewrite app_nil_r. exact Hk'.
    + destruct (proj1 (proj2 (proj2 Hn')) k) as [n H]; [now apply (proj1 Hn')|]. match goal with N : not_int _ _ |- _ => exact (N n H) end.
  - rewrite <- (header_shown_fun _ _ _ _ Hh Hh'), <- (if_shown_fun _ _ _ _ Ht Ht'), <- (if_shown_fun _ _ _ _ Hp Hp') in HF'.
    now rewrite (entries_fun _ _ _ _ _ _ _ _ Hd HF HF').
Qed.
Lemma pp_raise_iff E sp dw lw d x out : NoDup (map fst d) ->
  (pp E d sp dw lw = (Raise x, out) <-> pp_stops E sp dw lw d x out).
Proof.
  intro Hd. split; [apply pp_failure|]. intro H.
  destruct (pp_run E sp dw lw d) as [(ks & es & Hk & He & R)|(y & o & H1 & R)].
  - exfalso. destruct Hk as [h t p ks Hh Ht Hp Hn].
    destruct H as [nm H1 H2|h' t' p' ks' done k rest es' x part Hh' Ht' Hp' Hn' Hk HF Hl|h' t' p' es' k Hh' Ht' Hp' HF Hs Hk Hi].
    + destruct (header_not_lacks _ _ _ _ Hh H1 H2).
    + rewrite (header_shown_fun _ _ _ _ Hh' Hh), (if_shown_fun _ _ _ _ Ht' Ht), (if_shown_fun _ _ _ _ Hp' Hp) in Hk.
      eapply entries_not_stop; [exact Hd|exact He| |exact Hl]. rewrite <- Hk. destruct Hn' as [->|Hn'].
      * exists ks. now rewrite app_nil_r, <- !app_assoc.
      * exists []. now rewrite (numbered_fun _ _ _ _ Hd Hn Hn'), app_nil_r.
    + destruct (proj1 (proj2 (proj2 Hn)) k) as [n H]; [now apply (proj1 Hn)|]. match goal with N : not_int _ _ |- _ => exact (N n H) end.
  - destruct (pp_stops_fun _ _ _ _ _ _ _ _ _ Hd H H1) as [-> ->]. exact R.
Qed.
