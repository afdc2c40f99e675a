(** * SourceTools: pp(), run from its text, does what the model says. *)
From Verif Require Import PyBase Types Decoder Tools PyAst Source PySem SemClaims SemFacts SemHeap SemTools.
Local Open Scope string_scope.
Local Open Scope list_scope.

(** ** The model only adds to the stream *)
Definition appends {A} (m : WM A) : Prop := forall out, m out = (fst (m []), out ++ snd (m [])).
Lemma appends_write t : appends (write t). Proof. intro out. reflexivity. Qed.
Lemma appends_ret {A} (x : A) : appends (ret x). Proof. intro out. cbn. rewrite app_nil_r. reflexivity. Qed.
Lemma appends_raise {A} x : appends (raise x : WM A). Proof. intro out. cbn. rewrite app_nil_r. reflexivity. Qed.
Lemma appends_bind {A B} (m : WM A) (k : A -> WM B) : appends m -> (forall x, appends (k x)) -> appends (bind m k).
Proof.
  intros Hm Hk out. unfold bind. rewrite (Hm out). destruct (m []) as [[x|e] o1]; cbn [fst snd]; [|reflexivity].
  rewrite (Hk x (out ++ o1)), (Hk x o1). cbn [fst snd]. rewrite app_assoc. reflexivity.
Qed.
Ltac appends := repeat (first [apply appends_write | apply appends_ret | apply appends_raise
  | apply appends_bind; [|intro] | match goal with |- appends (match ?x with _ => _ end) => destruct x end]).
Lemma appends_spec sp k : appends (spec_get sp k). Proof. unfold spec_get. appends. Qed.
Lemma appends_prop {A} (o : option A) k : appends (prop o k). Proof. unfold prop. appends. Qed.
Lemma appends_shown E (b : bool) obj indent lw t t' :
  appends (match (if b then dispatch E obj else None) with
           | Some p => p indent lw ;;; write t
           | None => write t'
           end).
Proof. destruct b; [|appends]. destruct obj; cbn [dispatch]; unfold pprint_str, pprint_bytes; appends. Qed.
Lemma appends_field E v sp dw lw k : appends (pp_field E v sp dw lw k).
Proof.
  unfold pp_field. apply appends_bind; [apply appends_write|intros _]. apply appends_bind.
  - destruct (0 <? dw)%Z; appends; auto using appends_spec, appends_prop.
  - intro i. apply appends_bind; [apply appends_write|intros _]. apply appends_bind; [appends|]. intro j. apply appends_shown.
Qed.
Lemma appends_key E doc sp dw lw k : appends (pp_key E doc sp dw lw k).
Proof. unfold pp_key. destruct (vget (KStr k) doc); [apply appends_field|apply appends_raise]. Qed.
Lemma appends_keys E doc sp dw lw ks : appends (pp_keys E doc sp dw lw ks).
Proof. induction ks as [|k ks IH]; cbn [pp_keys]; [apply appends_ret|]. apply appends_bind; [apply appends_key|intros _; exact IH]. Qed.
Lemma appends_pp E doc sp dw lw : appends (pp_body E doc sp dw lw).
Proof. unfold pp_body. appends; auto using appends_spec, appends_prop, appends_key, appends_keys. Qed.

Theorem pp_as_written E order stdout h docv doc spv sp dv dw sv w t lv lw n :
  doc_rep E h docv doc -> spec_rep h spv sp -> width_rep E dv dw -> width_rep E lv lw ->
  stream_rep stdout sv w -> hget h w = Some (StreamO t) -> 4 <= n ->
  let (o, h') := call_fun E order stdout tools_table tools_py n "pp" [docv; spv; dv; sv; lv] h in
  pp_outcome h w t (pp E doc sp dw lw) o h'.
Proof.
  intros (a & items & -> & Ga & Rd) Rs Wd Wl Ws Gw N. destruct n as [|[|[|[|n]]]]; try lia.
  assert (Rh := spec_rep_held _ _ _ _ Rs (spec_rep_apart _ w _ _ Rs ltac:(intro; rewrite Gw; discriminate))).
  assert (X := sem_pp E order stdout h w t Gw a items doc Ga Rd spv sp Rh dw lw n dv lv sv Wd Wl Ws). unfold wp in X.
  destruct (call_fun E order stdout tools_table tools_py (S (S (S (S n)))) "pp" [RefV a; spv; dv; sv; lv] h) as [o h'].
  rewrite (appends_pp E doc sp dw lw t) in X. destruct X as ((G & _ & F) & P). cbn [fst snd] in *.
  split; [exact G|]. split; [exact F|exact P].
Qed.

(** With the defaults of the text: a description of 30, lines of 80, sys.stdout. *)
Theorem pp_defaults_as_written E order h docv doc spv sp w t n :
  doc_rep E h docv doc -> spec_rep h spv sp -> hget h w = Some (StreamO t) -> 4 <= n ->
  exists dv sv lv, map default_value defaults_pp = [Some dv; Some sv; Some lv] /\
  let (o, h') := call_fun E order (RefV w) tools_table tools_py n "pp" [docv; spv; dv; sv; lv] h in
  pp_outcome h w t (pp E doc sp 30 80) o h'.
Proof.
  intros Rd Rs Gw N. exists (IntV 30), NoneV, (IntV 80). split; [reflexivity|].
  apply pp_as_written; auto; left + right; auto; reflexivity.
Qed.
