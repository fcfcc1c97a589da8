(** Running a method body depends only on what its variables are bound to. *)
From Verif Require Import Base ClientModel HeaderModel TemplateModel MethodModel RunModel.
Local Open Scope N_scope.

Section Env.
Variables (V : Type) (ctx : context) (fs : type_id -> list N -> result V jerr).

Definition env_eq (e1 e2 : list (str * binding)) : Prop := forall x, assoc x e1 = assoc x e2.

Lemma env_eq_cons e1 e2 kb : env_eq e1 e2 -> env_eq (kb :: e1) (kb :: e2).
Proof. destruct kb as [k b]. intros H x. cbn. destruct (str_eqb x k); auto. Qed.

Lemma arg_texts_env e1 e2 l : env_eq e1 e2 -> arg_texts e1 l = arg_texts e2 l.
Proof. intro H. induction l as [|a l IH]; cbn; auto. now rewrite H, IH. Qed.

Lemma header_stmts_env l : forall e1 e2 h, env_eq e1 e2 -> eval_header_stmts V e1 h l = eval_header_stmts V e2 h l.
Proof.
  induction l as [|s l IH]; intros e1 e2 h H; cbn; auto.
  assert (E : eval_header_stmt V e1 h s = eval_header_stmt V e2 h s) by (destruct s; cbn; now rewrite H).
  rewrite E. destruct (eval_header_stmt V e2 h s); cbn; auto.
Qed.

Lemma headers_env e1 e2 l : env_eq e1 e2 -> eval_headers V ctx e1 l = eval_headers V ctx e2 l.
Proof.
  intro H. unfold eval_headers. destruct (header_value_static _); auto. apply header_stmts_env. now apply env_eq_cons.
Qed.

Lemma call_env e1 e2 b c : env_eq e1 e2 -> eval_call V ctx e1 b c = eval_call V ctx e2 b c.
Proof. intro H. destruct c; cbn; auto; unfold arg_body, arg_serde; now rewrite H. Qed.

Lemma calls_env l : forall e1 e2 b, env_eq e1 e2 -> eval_calls V ctx e1 b l = eval_calls V ctx e2 b l.
Proof.
  induction l as [|c l IH]; intros e1 e2 b H; cbn; auto. rewrite (call_env e1 e2) by auto.
  destruct (eval_call V ctx e2 b c); cbn; auto.
Qed.

Lemma request_env e1 e2 m u l : env_eq e1 e2 -> eval_request V ctx e1 m u l = eval_request V ctx e2 m u l.
Proof.
  intro H. unfold eval_request. destruct (negb (client_starts m)); auto. rewrite H. destruct (assoc u e2) as [[]|]; auto. now rewrite (calls_env _ e1 e2).
Qed.

Variables (W : Type) (ops : world_ops W).

Lemma exec_env sk ek prog : forall e1 e2 tr w, env_eq e1 e2 ->
  exec V ctx fs W ops sk ek prog e1 tr w = exec V ctx fs W ops sk ek prog e2 tr w.
Proof.
  induction prog as [|s prog IH]; intros e1 e2 tr w H; cbn [exec]; auto.
  destruct s.
  - unfold eval_url_expr, calls_variable. rewrite H. destruct (match ue_args e with _ :: _ => _ | _ => _ end); auto.
    rewrite (arg_texts_env e1 e2) by auto. destruct (arg_texts e2 _); auto.
    destruct (format_macro _ _); auto. apply IH. now apply env_eq_cons.
  - rewrite (headers_env e1 e2) by auto. destruct (eval_headers V ctx e2 hs); auto. apply IH. now apply env_eq_cons.
  - rewrite (request_env e1 e2) by auto. destruct (eval_request V ctx e2 m url calls); auto. apply IH. now apply env_eq_cons.
  - rewrite H. destruct (assoc req e2) as [[]|]; auto.
  - rewrite H. destruct (assoc req e2) as [[]|]; auto. destruct (w_pre_async ops r w) as [[]]; auto.
    apply IH. now apply env_eq_cons.
  - rewrite H. destruct (assoc req e2) as [[]|]; auto. destruct (w_execute ops r w) as [res' w'].
    apply IH. now apply env_eq_cons.
  - rewrite H. destruct (assoc res e2) as [[]|]; auto.
  - rewrite H. destruct (assoc res e2) as [[]|]; auto. destruct (w_post_async ops r w) as [[]]; auto.
  - rewrite H. destruct (assoc res e2) as [[| | | | |[]|]|]; auto. apply IH. now apply env_eq_cons.
  - rewrite H. auto.
Qed.

Lemma run_env sb e1 e2 w : env_eq e1 e2 -> run V ctx fs W ops sb e1 w = run V ctx fs W ops sb e2 w.
Proof. intro H. unfold run. now apply exec_env. Qed.
End Env.

Lemma assoc_nodup {A} (l : list (str * A)) k v : NoDup (map fst l) -> In (k, v) l -> assoc k l = Some v.
Proof.
  induction l as [|[k' v'] l IH]; cbn; [easy|]. intros Hn%NoDup_cons_iff [E|Hi].
  - injection E as -> ->. now rewrite str_eqb_refl.
  - destruct (str_eqb k k') eqn:E; [|now apply IH]. apply str_eqb_spec in E. subst.
    destruct Hn as [Hn _]. exfalso. apply Hn. change k' with (fst (k', v)). now apply in_map.
Qed.
Lemma assoc_none_notin {A} (l : list (str * A)) k : assoc k l = None <-> ~ In k (map fst l).
Proof.
  induction l as [|[k' v'] l IH]; cbn; [tauto|]. destruct (str_eqb k k') eqn:E.
  - apply str_eqb_spec in E. subst. split; [easy|]. intros H. exfalso. auto.
  - apply str_eqb_neq in E. rewrite IH. intuition.
Qed.

Lemma env_eq_rev (e : list (str * binding)) : NoDup (map fst e) -> env_eq (rev e) e.
Proof.
  intros H x. destruct (assoc x e) as [b|] eqn:E.
  - apply assoc_nodup.
    + rewrite map_rev. now apply NoDup_rev.
    + apply in_rev. rewrite rev_involutive. clear H. induction e as [|[k v] e IH]; [discriminate|].
      cbn in E. destruct (str_eqb x k) eqn:Ek; [|right; auto]. apply str_eqb_spec in Ek. left. congruence.
  - apply assoc_none_notin. apply assoc_none_notin in E. rewrite map_rev. intro Hi. now apply in_rev in Hi.
Qed.
