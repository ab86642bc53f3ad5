(** The attributes on the tags of an archive document (C34), with Archive_Spec.root_tag and Archive_Spec.unit_doc. *)
From Verif Require Import Base Text_Model Text_Spec Api_Model Writer_Model Writer_Spec Archive_Model Archive_Spec.
Local Open Scope N_scope.
(** the attributes of the root, and of a unit [v] of the same archive inside it; the tags are these: C34_tags *)
Definition root_attrs (a : archive) (al : list bytes) : list (bytes * bytes) :=
  tag_attrs (tag_settings a 0 (root_namespaces a)) (TagArgs None (a_revision a) (a_url a) None (a_version a) None None None al true).
Definition member_attrs (a : archive) (v : uobj) : list (bytes * bytes) :=
  tag_attrs (tag_settings a 1 (all_namespaces a v)) (in_archive_args a a v).
