(* The shipped themes, audited. *)
From Verif Require Import Py PyFacts Dict DictFacts UtilModel BoardModel ImageModel ImageSpec ImageCss ImageTree ImageMag ThemeData ThemeModel ThemePath ThemeDraw ThemeTree ThemeSpec ThemeAudit ThemeSound.
Open Scope string_scope.
Open Scope list_scope.
Open Scope Z_scope.

Definition rules_of (r : res (list rule)) : list rule := match r with Ok rs => rs | Exc _ => [] end.
Definition deutsche_rules : list rule := Eval vm_compute in rules_of (theme ("bglib/image/resource/deutsche/default.css", deutsche_css)).
Lemma deutsche_ok : theme ("bglib/image/resource/deutsche/default.css", deutsche_css) = Ok deutsche_rules.
Proof. vm_compute. reflexivity. Qed.
Definition flower_rules : list rule := Eval vm_compute in rules_of (theme ("bglib/image/resource/flower/default.css", flower_css)).
Lemma flower_ok : theme ("bglib/image/resource/flower/default.css", flower_css) = Ok flower_rules.
Proof. vm_compute. reflexivity. Qed.
Definition kotobuki_rules : list rule := Eval vm_compute in rules_of (theme ("bglib/image/resource/kotobuki/default.css", kotobuki_css)).
Lemma kotobuki_ok : theme ("bglib/image/resource/kotobuki/default.css", kotobuki_css) = Ok kotobuki_rules.
Proof. vm_compute. reflexivity. Qed.
Definition matrix_rules : list rule := Eval vm_compute in rules_of (theme ("bglib/image/resource/matrix/default.css", matrix_css)).
Lemma matrix_ok : theme ("bglib/image/resource/matrix/default.css", matrix_css) = Ok matrix_rules.
Proof. vm_compute. reflexivity. Qed.
Definition minimal_rules : list rule := Eval vm_compute in rules_of (theme ("bglib/image/resource/minimal/default.css", minimal_css)).
Lemma minimal_ok : theme ("bglib/image/resource/minimal/default.css", minimal_css) = Ok minimal_rules.
Proof. vm_compute. reflexivity. Qed.
Definition nature_rules : list rule := Eval vm_compute in rules_of (theme ("bglib/image/resource/nature/default.css", nature_css)).
Lemma nature_ok : theme ("bglib/image/resource/nature/default.css", nature_css) = Ok nature_rules.
Proof. vm_compute. reflexivity. Qed.
Definition neon_rules : list rule := Eval vm_compute in rules_of (theme ("bglib/image/resource/neon/default.css", neon_css)).
Lemma neon_ok : theme ("bglib/image/resource/neon/default.css", neon_css) = Ok neon_rules.
Proof. vm_compute. reflexivity. Qed.
Definition safari_rules : list rule := Eval vm_compute in rules_of (theme ("bglib/image/resource/safari/default.css", safari_css)).
Lemma safari_ok : theme ("bglib/image/resource/safari/default.css", safari_css) = Ok safari_rules.
Proof. vm_compute. reflexivity. Qed.
(* membership, compared from the end *)
Definition deutsche_back : list str := Eval vm_compute in map (@rev ascii) deutsche_files.
Lemma deutsche_back_ok : incl deutsche_back (map (@rev ascii) shipped).
Proof. assert (E : deutsche_back = map (@rev ascii) deutsche_files) by (vm_compute; reflexivity). rewrite E. apply incl_map. unfold shipped. intros x I. rewrite !in_app_iff. tauto. Qed.
Definition flower_back : list str := Eval vm_compute in map (@rev ascii) flower_files.
Lemma flower_back_ok : incl flower_back (map (@rev ascii) shipped).
Proof. assert (E : flower_back = map (@rev ascii) flower_files) by (vm_compute; reflexivity). rewrite E. apply incl_map. unfold shipped. intros x I. rewrite !in_app_iff. tauto. Qed.
Definition kotobuki_back : list str := Eval vm_compute in map (@rev ascii) kotobuki_files.
Lemma kotobuki_back_ok : incl kotobuki_back (map (@rev ascii) shipped).
Proof. assert (E : kotobuki_back = map (@rev ascii) kotobuki_files) by (vm_compute; reflexivity). rewrite E. apply incl_map. unfold shipped. intros x I. rewrite !in_app_iff. tauto. Qed.
Definition matrix_back : list str := Eval vm_compute in map (@rev ascii) matrix_files.
Lemma matrix_back_ok : incl matrix_back (map (@rev ascii) shipped).
Proof. assert (E : matrix_back = map (@rev ascii) matrix_files) by (vm_compute; reflexivity). rewrite E. apply incl_map. unfold shipped. intros x I. rewrite !in_app_iff. tauto. Qed.
Definition minimal_back : list str := Eval vm_compute in map (@rev ascii) minimal_files.
Lemma minimal_back_ok : incl minimal_back (map (@rev ascii) shipped).
Proof. assert (E : minimal_back = map (@rev ascii) minimal_files) by (vm_compute; reflexivity). rewrite E. apply incl_map. unfold shipped. intros x I. rewrite !in_app_iff. tauto. Qed.
Definition nature_back : list str := Eval vm_compute in map (@rev ascii) nature_files.
Lemma nature_back_ok : incl nature_back (map (@rev ascii) shipped).
Proof. assert (E : nature_back = map (@rev ascii) nature_files) by (vm_compute; reflexivity). rewrite E. apply incl_map. unfold shipped. intros x I. rewrite !in_app_iff. tauto. Qed.
Definition neon_back : list str := Eval vm_compute in map (@rev ascii) neon_files.
Lemma neon_back_ok : incl neon_back (map (@rev ascii) shipped).
Proof. assert (E : neon_back = map (@rev ascii) neon_files) by (vm_compute; reflexivity). rewrite E. apply incl_map. unfold shipped. intros x I. rewrite !in_app_iff. tauto. Qed.
Definition safari_back : list str := Eval vm_compute in map (@rev ascii) safari_files.
Lemma safari_back_ok : incl safari_back (map (@rev ascii) shipped).
Proof. assert (E : safari_back = map (@rev ascii) safari_files) by (vm_compute; reflexivity). rewrite E. apply incl_map. unfold shipped. intros x I. rewrite !in_app_iff. tauto. Qed.
Definition known (back : list str) (v : value) : bool := match v with VStr s => str_mem (rev s) back | _ => false end.
Lemma known_ok back v : incl back (map (@rev ascii) shipped) -> known back v = true -> in_package v.
Proof.
  intros I H. destruct v as [z|s|b|f]; try discriminate. cbn in H. apply str_mem_in in H. apply I in H. apply in_map_iff in H as (p & E & J).
  exists s. split; [reflexivity|]. rewrite <- (rev_involutive s), <- E, rev_involutive. exact J.
Qed.
Lemma deutsche_audit : audit deutsche_rules 341 (fun _ _ v => known deutsche_back v) 341 262 = true.
Proof. vm_compute. reflexivity. Qed.
Lemma flower_audit : audit flower_rules 341 (fun _ _ v => known flower_back v) 341 262 = true.
Proof. vm_compute. reflexivity. Qed.
Lemma kotobuki_audit : audit kotobuki_rules 341 (fun _ _ v => known kotobuki_back v) 341 262 = true.
Proof. vm_compute. reflexivity. Qed.
Lemma matrix_audit : audit matrix_rules 1000 (fun _ _ v => known matrix_back v || match v with VStr s => str_eqb s missing_font | _ => false end) 1000 800 = true.
Proof. vm_compute. reflexivity. Qed.
Lemma minimal_audit : audit minimal_rules 341 (fun _ _ v => known minimal_back v) 341 262 = true.
Proof. vm_compute. reflexivity. Qed.
Lemma nature_audit : audit nature_rules 341 (fun _ _ v => known nature_back v) 341 262 = true.
Proof. vm_compute. reflexivity. Qed.
Lemma neon_audit : audit neon_rules 341 (fun _ _ v => known neon_back v) 341 262 = true.
Proof. vm_compute. reflexivity. Qed.
Lemma safari_audit : audit safari_rules 341 (fun zone n v => known safari_back v || (match zone with EBar => true | _ => false end && (8 <=? n))) 341 232 = true.
Proof. vm_compute. reflexivity. Qed.
