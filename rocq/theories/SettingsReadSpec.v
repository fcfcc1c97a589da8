(** What the generator reads of its settings. *)
From Verif Require Import Base MethodModel BuilderModel GenerateModel.

Record reads (interface : interface_style -> Prop) (tag : tag_style -> Prop) (inner pre pre_async post post_async : Prop) (s : settings) : Prop := {
  rd_interface : interface (se_interface s);
  rd_tag : tag (se_tag s);
  rd_inner : se_inner s = true <-> inner;
  rd_pre : has_pre_hook (se_hooks s) = true <-> pre;
  rd_pre_async : has_pre_hook_async (se_hooks s) = true <-> pre_async;
  rd_post : has_post_hook (se_hooks s) = true <-> post;
  rd_post_async : has_post_hook_async (se_hooks s) = true <-> post_async
}.
