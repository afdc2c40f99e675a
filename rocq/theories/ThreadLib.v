(** * ThreadLib: the calls of the library in threads. *)
From Coq Require Import Lia.
From Verif Require Import PyBase BaseFacts Types Decoder Encoder Tools PyAst Source PySem SemClaims SemFacts SourceDecode SourceEncode SourceTools SessionClaims
  Threads ThreadClaims ThreadFacts ThreadSim ThreadRun ThreadMachine ThreadTasks.
Local Open Scope string_scope.
Local Open Scope list_scope.

Lemma diag_in own l l' : In (l, l') (diag own) <-> l = l' /\ In l own.
Proof. unfold diag. rewrite in_map_iff. split; [intros (x & [= <- <-] & I); auto|intros [<- I]; eauto]. Qed.
Lemma diag_fst own : map fst (diag own) = own.
Proof. unfold diag. rewrite map_map. cbn. apply map_id. Qed.
Lemma diag_snd own : map snd (diag own) = own.
Proof. unfold diag. rewrite map_map. cbn. apply map_id. Qed.

Section L.
  Context (h : heap) (shared own : list loc).
  Local Notation fr := (frozen_in h shared).
  Lemma inside_alike : forall v, inside own v -> alike fr (diag own) v v.
  Proof.
    fix IH 1. intros v I. destruct v; cbn in I; try constructor; try contradiction.
    - revert l I. fix IHl 1. intros l I. destruct l as [|x l]; [constructor|]. destruct I as [Ix I]. constructor; [apply IH, Ix|apply IHl, I].
    - now apply diag_in.
    - now apply diag_in.
    - apply IH, I.
  Qed.
  Lemma insides_alike l : Forall (inside own) l -> Forall2 (alike fr (diag own)) l l.
  Proof. induction 1; constructor; auto. now apply inside_alike. Qed.
  Lemma inside_items_alike {K} (l : list (K * PySem.value)) : Forall (fun kv => inside own (snd kv)) l -> alike_items fr (diag own) l l.
  Proof. induction 1; constructor; auto. split; [reflexivity|]. now apply inside_alike. Qed.
  Lemma inside_obj_alike o : inside_obj own o -> alike_obj fr (diag own) o o.
  Proof.
    intro I. destruct o as [items|s|vs|x|c vs src|t|c i a]; cbn in I; try (constructor; auto using insides_alike, inside_items_alike; fail).
    - destruct I as [I J]. destruct vs as [vs|], src as [[l x]|]; constructor; try (now apply diag_in); now apply insides_alike.
    - destruct I as [I J]. constructor; [now apply inside_items_alike|now apply insides_alike].
  Qed.
  Lemma owns_shows : owns h own -> shows_heap fr (diag own) h h.
  Proof. intros O l l' I. apply diag_in in I as [<- I]. destruct (O l I) as (o & G & X). exists o, o. split; [exact G|]. split; [exact G|]. now apply inside_obj_alike. Qed.
  Lemma owns_good : owns h own -> NoDup own -> (forall l, In l own -> ~ In l shared) -> good fr (diag own) h.
  Proof.
    intros O N D. split; [split; [|split]|].
    - now rewrite diag_fst.
    - now rewrite diag_snd.
    - rewrite diag_fst. intros l I. unfold frozen_in. destruct (in_dec PeanoNat.Nat.eq_dec l shared) as [J|_]; [destruct (D l I J)|reflexivity].
    - intros l l' I. apply diag_in in I as [<- I]. destruct (O l I) as (o & G & _). eapply hget_size, G.
  Qed.
  Lemma alike_back b : incl (diag own) b -> NoDup (map snd b) -> forall v x, inside own v -> alike fr b x v -> x = v.
  Proof.
    intros IB N. fix IH 1. intros v x I A. destruct v; inversion A; subst; try reflexivity; cbn in I; try contradiction.
    - f_equal. clear A. match goal with H : Forall2 _ _ _ |- _ => revert H end. revert l I. match goal with |- forall l, _ -> Forall2 _ ?l0 _ -> _ => revert l0 end.
      intros l0 l. revert l l0. fix IHl 1. intros l l0 I A. destruct l as [|y l]; inversion A; subst; [reflexivity|]. destruct I as [Iy I]. f_equal; [now apply IH|now apply IHl].
    - f_equal. eapply snd_unique; [exact N|eassumption|]. apply IB, diag_in. auto.
    - f_equal. eapply snd_unique; [exact N|eassumption|]. apply IB, diag_in. auto.
    - f_equal. apply IH; assumption.
  Qed.
  (** The shared dicts read as mappings that cannot be changed. *)
  Lemma immutable_alike1 b v : immutable v = true -> alike fr b v v.
  Proof. destruct v; cbn; try discriminate; constructor. Qed.
  Definition text_part {A} (f : PySem.value -> A) (items : list (pykey * PySem.value)) : list (pystr * A) :=
    flat_map (fun kv => match fst kv with KStr k => [(k, f (snd kv))] | _ => [] end) items.
  Lemma text_part_get {A} (f : PySem.value -> A) items k : sget k (text_part f items) = option_map f (dget key_eqb (KStr k) items).
  Proof.
    induction items as [|[[x|n r] v] items IH]; cbn; [reflexivity| |]; unfold sget in *; cbn.
    - destruct (str_eqb k x); [reflexivity|exact IH].
    - exact IH.
  Qed.
  Definition as_map (v : PySem.value) : PySem.value :=
    match v with
    | RefV l => match hget h l with Some (DictO items) => MapV (text_part (fun x => x) items) | _ => NoneV end
    | _ => NoneV
    end.
  Lemma dget_some_in (items : list (pykey * PySem.value)) k v : dget key_eqb k items = Some v -> exists k', In (k', v) items.
  Proof. induction items as [|[x w] items IH]; cbn; [discriminate|]. destruct (key_eqb k x); [intros [= ->]; eauto|]. intro D. destruct (IH D) as (k' & I). eauto. Qed.
  Lemma fs_rep_same m m' fs : (forall k, sget k m = sget k m') -> fs_rep m' fs -> fs_rep m fs.
  Proof. intros Q R. destruct R. constructor; rewrite Q; assumption. Qed.
  Lemma shared_frozen l o : In l shared -> hget h l = Some o -> fr l = Some o.
  Proof. intros I G. unfold frozen_in. destruct (in_dec PeanoNat.Nat.eq_dec l shared) as [_|N]; [exact G|destruct (N I)]. Qed.
  Lemma shared_reads sv sp : shared_spec h shared sv sp ->
    exists m, spec_rep h (MapV m) sp /\ (forall b, alike fr b sv (MapV m)) /\ forall k fv, sget k m = Some fv -> exists mm, fv = MapV mm.
  Proof.
    intros (SR & l & items & -> & Il & Gl & SUB). destruct SR as (m0 & (items0 & G0 & R0) & SP). cbn in G0. replace items0 with items in * by congruence. clear items0 G0.
    assert (AS : forall k v, dget key_eqb (KStr k) items = Some v -> exists l' items', v = RefV l' /\ In l' shared /\ hget h l' = Some (DictO items')
      /\ as_map v = MapV (text_part (fun x => x) items') /\ forall k' y, In (k', y) items' -> immutable y = true).
    { intros k v D. destruct (dget_some_in _ _ _ D) as (k' & I). destruct (SUB _ _ I) as (l' & items' & -> & Il' & G' & IM). exists l', items'. cbn. rewrite G'. auto. }
    exists (text_part as_map items). split; [|split].
    - exists (text_part as_map items). split; [reflexivity|]. intro k. rewrite text_part_get. specialize (SP k). specialize (R0 k). rewrite R0.
      destruct (sget k sp) as [fs|]; [|now rewrite SP].
      destruct SP as (fv & fm & K & RD & FS). rewrite K in *. destruct (AS _ _ R0) as (l' & items' & -> & _ & G' & M & _).
      cbn [option_map]. exists (as_map (RefV l')), (text_part (fun x => x) items'). split; [reflexivity|]. rewrite M. split; [reflexivity|].
      destruct RD as (i2 & G2 & R2). replace i2 with items' in * by congruence. eapply fs_rep_same; [|exact FS]. intro x. rewrite text_part_get, R2. now destruct (sget x fm).
    - intro b. eapply AlikeMap with (items := items); [now apply shared_frozen| |].
      + intros k. rewrite text_part_get. now destruct (dget _ _ items).
      + intros k v'. rewrite text_part_get. destruct (dget key_eqb (KStr k) items) as [v|] eqn:D; [|discriminate]. cbn. intros [= <-]. exists v. split; [reflexivity|].
        destruct (AS _ _ D) as (l' & items' & -> & Il' & G' & M & IM). rewrite M. eapply AlikeMap with (items := items'); [now apply shared_frozen| |].
        * intros x. rewrite text_part_get. now destruct (dget _ _ items').
        * intros x y. rewrite text_part_get. destruct (dget key_eqb (KStr x) items') as [w|] eqn:W; [|discriminate]. cbn. intros [= <-]. exists w. split; [reflexivity|].
          destruct (dget_some_in _ _ _ W) as (k' & I). apply immutable_alike1. eapply IM, I.
    - intros k fv. rewrite text_part_get. destruct (dget key_eqb (KStr k) items) as [v|] eqn:D; [|discriminate]. cbn. intros [= <-].
      destruct (AS _ _ D) as (l' & items' & -> & _ & _ & M & _). rewrite M. eauto.
  Qed.

  (** What is in the heap alone is in the heap of all threads. *)
  Section Back.
    Context (O : owns h own) (b : view) (GR : grown h (diag own) b) (P : proper_view fr b) (h' hs : heap) (S : shows_heap fr b h' hs).
    Lemma back_own l : In l own -> In (l, l) b.
    Proof. intro I. apply GR, diag_in. auto. Qed.
    Lemma back_object l l' o : In (l, l') b -> hget hs l' = Some o -> exists o', hget h' l = Some o' /\ alike_obj fr b o' o.
    Proof. intros I G. destruct (S _ _ I) as (p & p' & P1 & P2 & P3). exists p. split; [exact P1|]. now replace o with p' by congruence. Qed.
    Lemma back_new l l' : In (l, l') b -> length h <= l' -> length h <= l.
    Proof.
      intros I L. destruct GR as [_ G]. destruct (G _ _ I) as [D|D]; [|exact D]. apply diag_in in D as [<- D]. destruct (O _ D) as (o & X & _). apply hget_size in X. lia.
    Qed.
    Lemma back_fresh l l' : Forall2 (fun x x' => In (x, x') b) l l' -> fresh h l' -> fresh h l.
    Proof.
      intros F [N L]. split.
      - clear L. induction F as [|x x' l l' X F IH]; [constructor|]. inversion N as [|? ? N1 N2]; subst. constructor; [|auto].
        intro I. apply N1. clear - F X I P. induction F as [|y y' l l' Y F IH]; [destruct I|]. destruct I as [->|I]; [left|right; auto].
        symmetry. eapply fst_unique; [apply P|exact X|exact Y].
      - induction F as [|x x' l l' X F IH]; [constructor|]. inversion L; subst. inversion N; subst. constructor; [eapply back_new; eassumption|auto].
    Qed.
    Lemma back_texts i (d : ddoc) : alike_items fr b i (map (fun kv => (KStr (fst kv), StrV (snd kv))) d) -> i = map (fun kv => (KStr (fst kv), StrV (snd kv))) d.
    Proof.
      revert i. induction d as [|[k t] d IH]; intros i A; inversion A as [|[x v] ? ? ? [X V] A']; subst; [reflexivity|]. cbn in X, V |- *. inversion V; subst. f_equal. now apply IH.
    Qed.
    Lemma back_dec_dict l l' d : In (l, l') b -> dec_dict hs l' d -> dec_dict h' l d.
    Proof. intros I D. destruct (back_object _ _ _ I D) as (o & G & A). unfold dec_dict. rewrite G. inversion A; subst. do 2 f_equal. now apply back_texts. Qed.
    Lemma back_entry o e : alike_obj fr b o (entry_dict e) -> o = entry_dict e.
    Proof.
      unfold entry_dict. intro A. inversion A as [i i' I| | | | | | | | |]; subst. inversion I as [|[x v] ? i1 ? [X V] I1]; subst. inversion I1 as [|[y w] ? i2 ? [Y W] I2]; subst.
      inversion I2; subst. cbn in *. subst. inversion V; subst. inversion W; subst. reflexivity.
    Qed.
    Lemma back_enc_dict l l' inner d : In (l, l') b -> enc_dict hs l' inner d ->
      exists inner', Forall2 (fun x x' => In (x, x') b) inner' inner /\ enc_dict h' l inner' d.
    Proof.
      intros I (LEN & G & IN). destruct (back_object _ _ _ I G) as (o & Go & A). inversion A as [i i' Hi| | | | | | | | |]; subst.
      assert (X : forall (ks : list pykey) ls i, length ls = length ks -> alike_items fr b i (combine ks (map RefV ls)) -> exists ls', i = combine ks (map RefV ls') /\ Forall2 (fun x x' => In (x, x') b) ls' ls).
      { induction ks as [|k ks IH]; intros [|l0 ls] i0 L A0; try discriminate; cbn in A0; inversion A0 as [|[x v] ? ? ? [Xk V] A1]; subst.
        - exists []. split; [reflexivity|constructor].
        - cbn in Xk, V. subst x. destruct (IH ls _ (f_equal pred L) A1) as (ls' & -> & F). inversion V; subst.
          exists (l1 :: ls'). split; [reflexivity|]. now constructor. }
      destruct (X (map (fun ke => KStr (fst ke)) d) inner i ltac:(now rewrite map_length) Hi) as (inner' & -> & F). exists inner'. split; [exact F|]. split; [|split].
      - rewrite <- LEN. clear - F. induction F; cbn; congruence.
      - exact Go.
      - intros n ke m D N. assert (exists m', nth_error inner n = Some m' /\ In (m, m') b) as (m' & N' & M).
        { clear - F N. revert n N. induction F as [|x x' l l' X F IH]; intros [|n] N; cbn in *; try discriminate; [injection N as <-; eauto|auto]. }
        destruct (back_object _ _ _ M (IN _ _ _ D N')) as (o & G' & A'). now rewrite (back_entry _ _ A') in G'.
    Qed.
    Lemma back_thrown o o' c t : alike_outcome fr b o o' -> o' = Thrown (ExcV c t) -> o = Thrown (ExcV c t).
    Proof. intros A ->. destruct o as [v|v|]; cbn in A; try contradiction. now inversion A. Qed.
    Lemma back_arg iv x : inside own iv -> alike fr b x iv -> x = iv.
    Proof. intros IV A. eapply alike_back; [apply GR|apply P|exact IV|exact A]. Qed.
    Ltac look :=
      repeat match goal with
      | H : alike_obj _ _ _ (InstO _ _ _) |- _ => inversion H; clear H; subst
      | H : alike_items _ _ _ _ |- _ => unfold alike_items in H
      | H : Forall2 (fun x y => fst x = fst y /\ _) _ (_ :: _) |- _ =>
          let X := fresh "X" in let V := fresh "V" in let I := fresh "I" in
          inversion H as [|[? ?] ? ? ? [X V] I]; clear H; subst; cbn [fst snd] in X, V; subst
      | H : Forall2 (fun x y => fst x = fst y /\ _) _ [] |- _ => inversion H; clear H; subst
      | H : Forall2 (alike _ _) _ (_ :: _) |- _ => inversion H; clear H; subst
      | H : Forall2 (alike _ _) _ [] |- _ => inversion H; clear H; subst
      | H : alike _ _ _ (StrV _) |- _ => inversion H; clear H; subst
      | H : alike _ _ _ (IntV _) |- _ => inversion H; clear H; subst
      | H : alike _ _ _ (TupleV _) |- _ => inversion H; clear H; subst
      | H : alike _ _ _ (RefV _) |- _ => inversion H; clear H; subst
      | IV : inside own ?v, H : alike _ _ _ ?v |- _ => apply (back_arg _ _ IV) in H; subst
      | H : alike_outcome _ _ ?o (Done _) |- _ => destruct o; cbn in H; try contradiction
      | H : alike_outcome _ _ ?o (Thrown _) |- _ => destruct o; cbn in H; try contradiction
      end.
    Lemma back_decode iv m o o' : inside own iv -> alike_outcome fr b o o' -> decode_outcome h iv m o' hs -> decode_outcome h iv m o h'.
    Proof.
      intros IV A D. destruct m as [[dec enc]|x]; cbn in D |- *.
      - destruct D as (a & e & inner & -> & D & N & F). look.
        match goal with Xa : In (?a1, a) b, Xe : In (?e1, e) b |- _ =>
          destruct (back_enc_dict _ _ _ _ Xe N) as (inner' & FI & N'); exists a1, e1, inner'; split; [reflexivity|]; split; [eapply back_dec_dict; eassumption|]; split; [exact N'|] end.
        eapply back_fresh; [|exact F]. repeat constructor; assumption.
      - destruct x as [e| |k|t| |]; try contradiction.
        + destruct D as (l & a & b0 & inner & -> & G & D & N & F). look.
          match goal with Xl : In (?l1, l) b |- _ => destruct (back_object _ _ _ Xl G) as (o & Go & Ao) end. look.
          match goal with Xl : In (?l1, l) b, Xa : In (?a1, a) b, Xe : In (?e1, b0) b |- _ =>
            destruct (back_enc_dict _ _ _ _ Xe N) as (inner' & FI & N'); exists l1, a1, e1, inner' end.
          split; [reflexivity|]. split; [exact Go|]. split; [eapply back_dec_dict; eassumption|]. split; [exact N'|].
          eapply back_fresh; [|exact F]. repeat constructor; assumption.
        + eapply back_thrown; eassumption.
        + eapply back_thrown; eassumption.
        + destruct D as (t & ->). exists t. eapply back_thrown; [eassumption|reflexivity].
    Qed.
    Lemma back_encode dv m o o' : inside own dv -> alike_outcome fr b o o' -> encode_outcome h dv m o' hs -> encode_outcome h dv m o h'.
    Proof.
      intros IV A D. destruct m as [[bs enc]|x]; cbn in D |- *.
      - destruct D as (a & e & inner & -> & D & N & F). look.
        match goal with Xa : In (?a1, a) b, Xe : In (?e1, e) b |- _ =>
          destruct (back_enc_dict _ _ _ _ Xe N) as (inner' & FI & N'); destruct (back_object _ _ _ Xa D) as (o & Go & Ao); exists a1, e1, inner' end.
        split; [reflexivity|]; split; [inversion Ao; subst; exact Go|]; split; [exact N'|].
        eapply back_fresh; [|exact F]. repeat constructor; assumption.
      - destruct x as [|e|k|t| |]; try contradiction.
        + destruct D as (l & b0 & inner & -> & G & N & F). look.
          match goal with Xl : In (?l1, l) b |- _ => destruct (back_object _ _ _ Xl G) as (o & Go & Ao) end. look.
          match goal with Xl : In (?l1, l) b, Xe : In (?e1, b0) b |- _ =>
            destruct (back_enc_dict _ _ _ _ Xe N) as (inner' & FI & N'); exists l1, e1, inner' end.
          split; [reflexivity|]. split; [exact Go|]. split; [exact N'|].
          eapply back_fresh; [|exact F]. repeat constructor; assumption.
        + eapply back_thrown; eassumption.
        + eapply back_thrown; eassumption.
        + destruct D as (t & ->). exists t. eapply back_thrown; [eassumption|reflexivity].
        + eapply back_thrown; eassumption.
    Qed.
    Lemma back_dict dv d : inside own dv -> dict_left h dv d hs -> dict_holds h dv d h'.
    Proof.
      intros IV D l items -> G. cbn in IV. destruct (O l IV) as (o & G0 & INo). replace o with (DictO items) in INo by congruence. clear o G0. cbn in INo.
      destruct (D _ _ G) as [D1 _]. destruct (D1 eq_refl) as (items' & G2 & R & FROM). destruct (back_object _ _ _ (back_own l IV) G2) as (o & Go & A).
      inversion A as [i1 i2 HI| | | | | | | | |]; subst. exists items'.
      assert (INS : forall k x, In (k, x) items' -> inside own x).
      { intros k x I. destruct (FROM _ _ I) as [J|(t & ->)]; [|exact Logic.I]. rewrite Forall_forall in INo. exact (INo _ J). }
      assert (EQ : i1 = items').
      { clear - HI INS GR P. induction HI as [|[k1 x1] [k2 x2] i1 i2 [K X] HI IH]; [reflexivity|]. cbn in K, X. subst k2. f_equal.
        - f_equal. apply back_arg; [|exact X]. eapply INS. left. reflexivity.
        - apply IH. intros k x I. eapply INS. right. exact I. }
      subst i1. split; [exact Go|]. unfold items_rep in *. clear - R INS GR P S O. induction R as [|[k x] [k' p] i d [K V] R IH]; [constructor|]. cbn in K, V.
      constructor; [|apply IH; intros; eapply INS; right; eassumption]. split; [exact K|]. cbn.
      destruct p as [t|bs|n]; cbn in V |- *; auto. destruct V as [->|(l0 & -> & N & G0)]; [left; reflexivity|right]. exists l0. split; [reflexivity|]. split; [exact N|].
      assert (IN : inside own (RefV l0)) by (eapply INS; left; reflexivity). destruct (back_object _ _ _ (back_own l0 IN) G0) as (o & G1 & A1). inversion A1; subst. exact G1.
    Qed.
    Lemma back_pp w t m o o' : In w own -> alike_outcome fr b o o' -> pp_outcome h w t m o' hs -> hget h' w = Some (StreamO (t ++ snd m)) /\ pp_ended (fst m) o.
    Proof.
      intros W A (G & _ & D). split.
      - destruct (back_object _ _ _ (back_own w W) G) as (o1 & G1 & A1). inversion A1; subst. exact G1.
      - destruct (fst m) as [x|x]; cbn in D |- *.
        + subst o'. look. now inversion A.
        + destruct x; try contradiction; [eapply back_thrown; eassumption|eapply back_thrown; eassumption|]. destruct D as (t1 & ->). exists t1. eapply back_thrown; [eassumption|reflexivity].
    Qed.
  End Back.
End L.

Section Tasks.
  Context (E : pyenv) (order : list Z -> list Z) (M : machine E order) (h : heap) (shared : list loc).
  Local Notation fr := (frozen_in h shared).
  Lemma sim_ok own f m' (m : act PySem.value) : good fr (diag own) h -> sim fr (diag own) (alike fr) m f -> f h = m' -> (forall w, fst m' <> Stuck w) ->
    ok fr (diag own) h m (ends_alike fr (diag own) (alike fr) m').
  Proof. intros G S Q N. specialize (S h G). rewrite Q in S. destruct (fst m') as [v|x|w] eqn:F; [exact S|exact S|destruct (N w eq_refl)]. Qed.
  Lemma decode_not_stuck iv m o h' w : decode_outcome h iv m o h' -> o <> Stuck w.
  Proof.
    destruct m as [[dec enc]|x]; cbn.
    - intros (a & b & inner & -> & _) X. discriminate.
    - destruct x; try contradiction; try (intros -> X; discriminate).
      + intros (l & a & b & inner & -> & _) X. discriminate.
      + intros (t & ->) X. discriminate.
  Qed.
  Lemma encode_not_stuck iv m o h' w : encode_outcome h iv m o h' -> o <> Stuck w.
  Proof.
    destruct m as [[dec enc]|x]; cbn.
    - intros (a & b & inner & -> & _) X. discriminate.
    - destruct x; try contradiction; try (intros -> X; discriminate).
      + intros (l & b & inner & -> & _) X. discriminate.
      + intros (t & ->) X. discriminate.
  Qed.
  Lemma pp_not_stuck m o w : pp_ended m o -> o <> Stuck w.
  Proof. destruct m as [x|x]; cbn; [intros -> X; discriminate|]. destruct x; try contradiction; try (intros -> X; discriminate). intros (t & ->) X. discriminate. Qed.
  Lemma width_inside own v n : width_rep E v n -> inside own v.
  Proof. intros [->|(s & -> & _)]; exact I. Qed.
  Lemma map_apart m v own : (forall k fv, sget k m = Some fv -> exists mm, fv = MapV mm) -> inside own v -> spec_apart h (MapV m) v.
  Proof.
    intros K IV. split.
    - intros <-. exact IV.
    - intros m' k fv R S <-. cbn in R. subst m'. destruct (K _ _ S) as (mm & ->). exact IV.
  Qed.
  Lemma task_goal own m claim : owns h own -> NoDup own -> (forall l, In l own -> ~ In l shared) -> task E order h shared own m claim ->
    exists r, ok fr (diag own) h m (ends_alike fr (diag own) (alike fr) r) /\
      forall b o h', grown h (diag own) b -> proper_view fr b -> shows_heap fr b h' (snd r) -> alike_outcome fr b o (fst r) -> claim o h'.
  Proof.
    intros O N D T. assert (G := owns_good h shared own O N D). destruct M as (M1 & M2 & M3 & M4).
    destruct T as [r iv s sv sp IR SZ IV SS IO|r dv d sv sp DR IM IV SS IO|r docv doc sv sp dv dw stv w t lv lw DR ID SS WD WL ST GW IS IO].
    - destruct (shared_reads h shared sv sp SS) as (mm & SR & AL & _).
      pose proof (decode_as_written E order (r_stdout r) (r_table r) M1 M2 M4 h iv s (MapV mm) sp (r_depth r) IR SR SZ (r_deep r)) as C.
      destruct (call_fun E order (r_stdout r) (r_table r) decoder_py (r_depth r) "decode" [iv; MapV mm] h) as [o h1] eqn:Q. destruct C as [_ C].
      exists (o, h1). split.
      + eapply sim_ok; [exact G|apply call_fun_alike with (stdout' := r_stdout r); [now apply inside_alike|]|exact Q|intros w; eapply decode_not_stuck, C].
        repeat constructor; [now apply inside_alike|apply AL].
      + intros b o' h' GR P S A. eapply back_decode; try eassumption.
    - destruct (shared_reads h shared sv sp SS) as (mm & SR & AL & SUB).
      pose proof (encode_as_written E order (r_stdout r) (r_table r) M1 M3 M4 h dv d (MapV mm) sp (r_depth r) DR IM SR (map_apart _ _ _ SUB IV) (r_deep r)) as C.
      destruct (call_fun E order (r_stdout r) (r_table r) encoder_py (r_depth r) "encode" [dv; MapV mm] h) as [o h1] eqn:Q. destruct C as [C0 C].
      exists (o, h1). split.
      + eapply sim_ok; [exact G|apply call_fun_alike with (stdout' := r_stdout r); [now apply inside_alike|]|exact Q|intros w; eapply encode_not_stuck, C].
        repeat constructor; [now apply inside_alike|apply AL].
      + intros b o' h' GR P S A. split; [eapply back_encode; eassumption|eapply back_dict; eassumption].
    - destruct (shared_reads h shared sv sp SS) as (mm & SR & AL & _).
      assert (DEEP : 4 <= r_depth r) by (pose proof (r_deep r); lia).
      pose proof (pp_as_written E order (r_stdout r) h docv doc (MapV mm) sp dv dw stv w t lv lw (r_depth r) DR SR WD WL ST GW DEEP) as C.
      destruct (call_fun E order (r_stdout r) tools_table tools_py (r_depth r) "pp" [docv; MapV mm; dv; stv; lv] h) as [o h1] eqn:Q.
      assert (W : In w own) by (destruct ST as [->|[-> ST]]; [exact IS|rewrite ST in IO; exact IO]).
      exists (o, h1). split.
      + eapply sim_ok; [exact G|apply call_fun_alike with (stdout' := r_stdout r); [now apply inside_alike|]|exact Q|intros w0; destruct C as (_ & _ & C); eapply pp_not_stuck, C].
        repeat constructor; try (apply inside_alike; eauto using width_inside; fail). apply AL.
      + intros b o' h' GR P S A. eapply back_pp; eassumption.
  Qed.

  Lemma nodup_parts {A} (l : list (list A)) i x : NoDup (concat l) -> nth_error l i = Some x -> NoDup x.
  Proof.
    revert i. induction l as [|y l IH]; intros [|i] N X; cbn in *; try discriminate.
    - injection X as ->. clear IH. induction x as [|a x IHx]; [constructor|]. inversion N; subst. constructor; [|auto]. intro I. apply H1. apply in_or_app. auto.
    - eapply IH; [|exact X]. clear - N. induction y as [|a y IHy]; [exact N|]. inversion N; auto.
  Qed.
  Lemma nodup_app_disjoint {A} (l r : list A) x : NoDup (l ++ r) -> In x l -> ~ In x r.
  Proof. induction l as [|a l IH]; cbn; [tauto|]. intros N [->|I] J; inversion N; subst; [apply H1, in_or_app; auto|exact (IH H2 I J)]. Qed.
  Lemma nodup_disjoint {A} (l : list (list A)) i j x y a : NoDup (concat l) -> i <> j -> nth_error l i = Some x -> nth_error l j = Some y -> In a x -> ~ In a y.
  Proof.
    revert i j. induction l as [|z l IH]; intros [|i] [|j] N D X Y Ia Ja; cbn in *; try discriminate; try congruence.
    - injection X as ->. apply (nodup_app_disjoint _ _ a N Ia). apply in_concat. exists y. split; [eapply nth_error_In, Y|exact Ja].
    - injection Y as ->. apply (nodup_app_disjoint _ _ a N Ja). apply in_concat. exists x. split; [eapply nth_error_In, X|exact Ia].
    - eapply (IH i j); eauto. clear - N. induction z as [|b z IHz]; [exact N|]. inversion N; auto.
  Qed.
  Lemma nodup_app_r {A} (l r : list A) : NoDup (l ++ r) -> NoDup r.
  Proof. induction l as [|a l IH]; cbn; [auto|]. intro N. inversion N; auto. Qed.

  Lemma forall_goals {A B} (Q : A -> B -> Prop) l : Forall (fun a => exists b, Q a b) l -> exists bs, Forall2 Q l bs.
  Proof. induction 1 as [|a l (b & X) _ (bs & IH)]; [exists []; constructor|exists (b :: bs); now constructor]. Qed.
  Lemma forall2_nth {A B} (Q : A -> B -> Prop) l l' i a : Forall2 Q l l' -> nth_error l i = Some a -> exists b, nth_error l' i = Some b /\ Q a b.
  Proof. intro F. revert i. induction F as [|x y l l' X F IH]; intros [|i] N; cbn in *; try discriminate; [injection N as <-; eauto|eauto]. Qed.
  Lemma forall2_nth2 {A B} (Q : A -> B -> Prop) l l' i b : Forall2 Q l l' -> nth_error l' i = Some b -> exists a, nth_error l i = Some a /\ Q a b.
  Proof. intro F. revert i. induction F as [|x y l l' X F IH]; intros [|i] N; cbn in *; try discriminate; [injection N as <-; eauto|eauto]. Qed.

  Lemma claims_end ts : NoDup (shared ++ concat (map t_own ts)) -> Forall (fun t => owns h (t_own t)) ts ->
    Forall (fun t => NoDup (t_own t) -> (forall l, In l (t_own t) -> ~ In l shared) ->
      exists r, ok fr (diag (t_own t)) h (t_run t) (ends_alike fr (diag (t_own t)) (alike fr) r) /\
      forall b o h', grown h (diag (t_own t)) b -> proper_view fr b -> shows_heap fr b h' (snd r) -> alike_outcome fr b o (fst r) -> t_claim t o h') ts ->
    forall ms h', schedule (map t_run ts, h) (ms, h') ->
    length ms = length ts /\ (forall l, In l shared -> l < length h -> hget h' l = hget h l)
    /\ forall i t o, nth_error ts i = Some t -> nth_error ms i = Some (End o) -> t_claim t o h'.
  Proof.
    intros ND OW TK ms h' SCH.
    assert (OWN : forall i t, nth_error ts i = Some t -> NoDup (t_own t) /\ forall l, In l (t_own t) -> ~ In l shared).
    { intros i t T. assert (T' : nth_error (map t_own ts) i = Some (t_own t)) by now apply map_nth_error. split.
      - eapply nodup_parts; [eapply nodup_app_r, ND|exact T'].
      - intros l I J. apply (nodup_app_disjoint _ _ l ND J). apply in_concat. exists (t_own t). split; [eapply nth_error_In, T'|exact I]. }
    assert (GS : exists rs, Forall2 (fun t r => ok fr (diag (t_own t)) h (t_run t) (ends_alike fr (diag (t_own t)) (alike fr) r) /\
      forall b o h', grown h (diag (t_own t)) b -> proper_view fr b -> shows_heap fr b h' (snd r) -> alike_outcome fr b o (fst r) -> t_claim t o h') ts rs).
    { apply forall_goals. apply Forall_forall. intros t I. apply In_nth_error in I as (i & T). destruct (OWN _ _ T) as [N D].
      apply nth_error_In in T. rewrite Forall_forall in OW, TK. apply TK; auto. }
    destruct GS as (rs & GS).
    set (goals := combine (map (fun t => diag (t_own t)) ts) rs).
    assert (LR : length rs = length ts) by (symmetry; eapply forall2_length, GS).
    assert (LG : length goals = length ts) by (subst goals; etransitivity; [apply combine_length|rewrite map_length; lia]).
    assert (NG : forall i g, nth_error goals i = Some g -> exists t, nth_error ts i = Some t /\ fst g = diag (t_own t) /\ nth_error rs i = Some (snd g)).
    { subst goals. clear - LR. revert ts LR. induction rs as [|r rs IH]; intros [|t ts] LR [|i] g G; cbn in *; try discriminate; [injection G as <-; eauto|]. apply IH; [congruence|exact G]. }
    assert (NG2 : forall i t r, nth_error ts i = Some t -> nth_error rs i = Some r -> nth_error goals i = Some (diag (t_own t), r)).
    { subst goals. clear. revert ts. induction rs as [|x rs IH]; intros [|t ts] [|i] t0 r T R; cbn in *; try discriminate; [congruence|]. now apply IH. }
    assert (I0 : Inv fr h goals (map t_run ts, h)).
    { unfold Inv. split; [rewrite map_length; exact (eq_sym LG)|]. split; [lia|]. split.
      - intros l o F. unfold frozen_in in F. destruct (in_dec PeanoNat.Nat.eq_dec l shared); [exact F|discriminate].
      - exists (fun i => match nth_error ts i with Some t => diag (t_own t) | None => [] end). split; [|split].
        + intros i L. rewrite map_length in L. now rewrite (proj2 (nth_error_None ts i) L).
        + intros i m g Mi Gi. destruct (NG _ _ Gi) as (t & T & FG & R). rewrite T. rewrite (map_nth_error _ _ _ T) in Mi. injection Mi as <-.
          destruct (forall2_nth _ _ _ _ _ GS T) as (r & R' & OKr & _). replace r with (snd g) in OKr by congruence.
          destruct (OWN _ _ T) as [N D]. assert (O : owns h (t_own t)) by (rewrite Forall_forall in OW; apply OW; eapply nth_error_In, T).
          exists h. rewrite FG. split; [exact OKr|]. split; [now apply owns_good|]. split; [now apply owns_shows|]. split; [apply incl_refl|]. auto.
        + intros i j l NE I J. destruct (nth_error ts i) as [ti|] eqn:Ti; [|destruct I]. destruct (nth_error ts j) as [tj|] eqn:Tj; [|destruct J].
          rewrite diag_fst in I, J. eapply (nodup_disjoint (map t_own ts) i j); [eapply nodup_app_r, ND|exact NE| | |exact I|exact J]; now apply map_nth_error. }
    assert (I1 := inv_schedule fr h goals _ _ SCH I0). split; [|split].
    - destruct I1 as (L & _). rewrite L. exact LG.
    - destruct I1 as (_ & _ & F & _). intros l I L. destruct (hget h l) as [o|] eqn:G; [|apply nth_error_None in G; lia]. apply F. unfold frozen_in.
      destruct (in_dec PeanoNat.Nat.eq_dec l shared); [exact G|contradiction].
    - intros i t o T Mo. destruct (forall2_nth _ _ _ _ _ GS T) as (r & R & _ & CL).
      destruct (inv_end fr h goals ms h' i o _ I1 Mo (NG2 _ _ _ T R)) as (b & GR & P & S & A). eapply CL; eassumption.
  Qed.
  Lemma threads_end ts : threads_ready E order h shared ts -> forall ms h', schedule (map t_run ts, h) (ms, h') ->
    length ms = length ts /\ (forall l, In l shared -> l < length h -> hget h' l = hget h l)
    /\ forall i t o, nth_error ts i = Some t -> nth_error ms i = Some (End o) -> t_claim t o h'.
  Proof.
    intros (ND & OW & TK). apply claims_end; [exact ND|exact OW|]. apply Forall_forall. intros t I N D. rewrite Forall_forall in OW, TK.
    apply task_goal; auto.
  Qed.
End Tasks.

Lemma jobs_end E order h shared js alone : jobs_apart h shared js alone -> Forall2 (fun j a => forall w, fst (job_alone E order j a h) <> Stuck w) js alone ->
  forall ms h', schedule (map (job_thread E order) js, h) (ms, h') ->
  (forall l, In l shared -> l < length h -> hget h' l = hget h l) /\
  forall i j a o, nth_error js i = Some j -> nth_error alone i = Some a -> nth_error ms i = Some (End o) ->
  exists b, (forall l, In l (j_own j) -> In (l, l) b) /\ proper_view (frozen_in h shared) b
    /\ shows_heap (frozen_in h shared) b h' (snd (job_alone E order j a h)) /\ alike_outcome (frozen_in h shared) b o (fst (job_alone E order j a h)).
Proof.
  intros (ND & OK0) NS0 ms h' SCH.
  assert (OK : Forall2 (fun j a => owns h (j_own j) /\ inside (j_own j) (j_stdout j) /\ Forall2 (alike (frozen_in h shared) (diag (j_own j))) (j_args j) a
                      /\ forall w, fst (job_alone E order j a h) <> Stuck w) js alone).
  { clear - OK0 NS0. induction OK0 as [|j a js alone (X & Y & Z) _ IH]; inversion NS0; constructor; [auto|]. now apply IH. }
  clear OK0 NS0. set (th := fun ja : job * list PySem.value => let (j, a) := ja in {| t_own := j_own j; t_run := job_thread E order j; t_claim := fun o h' =>
    exists b, (forall l, In l (j_own j) -> In (l, l) b) /\ proper_view (frozen_in h shared) b
    /\ shows_heap (frozen_in h shared) b h' (snd (job_alone E order j a h)) /\ alike_outcome (frozen_in h shared) b o (fst (job_alone E order j a h)) |}).
  assert (R : map t_run (map th (combine js alone)) = map (job_thread E order) js) by (clear - OK; induction OK as [|j a js alone _ _ IH]; cbn; [reflexivity|now f_equal]).
  assert (W : map t_own (map th (combine js alone)) = map j_own js) by (clear - OK; induction OK as [|j a js alone _ _ IH]; cbn; [reflexivity|now f_equal]).
  assert (K : forall t, In t (map th (combine js alone)) -> exists j a, t = th (j, a) /\ owns h (j_own j) /\ inside (j_own j) (j_stdout j)
      /\ Forall2 (alike (frozen_in h shared) (diag (j_own j))) (j_args j) a /\ forall w, fst (job_alone E order j a h) <> Stuck w).
  { clear - OK. induction OK as [|j a js alone X OK IH]; cbn [combine map In]; intros t [<-|I] || intros t []; [exists j, a; split; [reflexivity|exact X]|now apply IH]. }
  destruct (claims_end h shared (map th (combine js alone))) with (ms := ms) (h' := h') as (_ & S & C).
  - rewrite W. exact ND.
  - apply Forall_forall. intros t I. destruct (K t I) as (j & a & -> & O & _). exact O.
  - apply Forall_forall. intros t I N D. destruct (K t I) as (j & a & -> & O & IS & IA & NS). cbn [th t_own t_run t_claim] in *.
    exists (job_alone E order j a h). split.
    + eapply sim_ok; [apply owns_good; assumption|apply call_fun_alike with (stdout' := j_stdout j); [now apply inside_alike|exact IA]|reflexivity|exact NS].
    + intros b o' h2 G P S A. exists b. split; [|split; [exact P|split; [exact S|exact A]]]. intros l L. apply G. now apply diag_in.
  - rewrite R. exact SCH.
  - split; [exact S|]. intros i j a o J A Mo. apply (C i (th (j, a)) o); [|exact Mo]. apply map_nth_error.
    clear - J A. revert alone i J A. induction js as [|x js IH]; intros [|y alone] [|i] J A; cbn in *; try discriminate; [congruence|now apply IH].
Qed.
