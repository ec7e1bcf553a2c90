(** From a derivation back to abstract syntax, part 6: every accepted text is a
    program. *)
From Coq Require Import List Arith NArith PArith Bool String Lia.
From Verif Require Import Py.Str Py.Val Lark.Regex Lark.Tree Lark.Shape Lark.Terminals Lark.Lexer Lark.Ebnf
     Lark.Lalr Lark.BicepGrammar Lark.BicepTables Lark.Driver
     Spec.Lexemes Spec.Sentences Spec.Layout
     Proofs.Base Proofs.Regex Proofs.LR Proofs.Lexer Proofs.Parse Proofs.Grammar Proofs.Follow Proofs.TokenForms Proofs.Layout Proofs.Lexable
     Proofs.Generate Proofs.Derive Proofs.DerivePrograms Proofs.TreeGrammar Proofs.Like
     Spec.Types Spec.Spelling Spec.Syntax Spec.Reading Proofs.Unparse Proofs.UnparseExprs Proofs.UnparseDecos Proofs.UnparseDecls.
Import ListNotations.
Local Open Scope string_scope.
Local Open Scope list_scope.

(** ** All productions *)
Definition prod_ids : list positive := Eval vm_compute in map Pos.of_nat (seq 1 344).
Lemma prods_all E : Forall (prod_sound E) prod_ids.
Proof. exact (Forall_cons _ (prod_1 E) (Forall_cons _ (prod_2 E) (Forall_cons _ (prod_3 E) (Forall_cons _ (prod_4 E) (Forall_cons _ (prod_5 E) (Forall_cons _
(prod_6 E) (Forall_cons _ (prod_7 E) (Forall_cons _ (prod_8 E) (Forall_cons _ (prod_9 E) (Forall_cons _ (prod_10 E) (Forall_cons _ (prod_11 E)
(Forall_cons _ (prod_12 E) (Forall_cons _ (prod_13 E) (Forall_cons _ (prod_14 E) (Forall_cons _ (prod_15 E) (Forall_cons _ (prod_16 E) (Forall_cons _
(prod_17 E) (Forall_cons _ (prod_18 E) (Forall_cons _ (prod_19 E) (Forall_cons _ (prod_20 E) (Forall_cons _ (prod_21 E) (Forall_cons _ (prod_22 E)
(Forall_cons _ (prod_23 E) (Forall_cons _ (prod_24 E) (Forall_cons _ (prod_25 E) (Forall_cons _ (prod_26 E) (Forall_cons _ (prod_27 E) (Forall_cons _
(prod_28 E) (Forall_cons _ (prod_29 E) (Forall_cons _ (prod_30 E) (Forall_cons _ (prod_31 E) (Forall_cons _ (prod_32 E) (Forall_cons _ (prod_33 E)
(Forall_cons _ (prod_34 E) (Forall_cons _ (prod_35 E) (Forall_cons _ (prod_36 E) (Forall_cons _ (prod_37 E) (Forall_cons _ (prod_38 E) (Forall_cons _
(prod_39 E) (Forall_cons _ (prod_40 E) (Forall_cons _ (prod_41 E) (Forall_cons _ (prod_42 E) (Forall_cons _ (prod_43 E) (Forall_cons _ (prod_44 E)
(Forall_cons _ (prod_45 E) (Forall_cons _ (prod_46 E) (Forall_cons _ (prod_47 E) (Forall_cons _ (prod_48 E) (Forall_cons _ (prod_49 E) (Forall_cons _
(prod_50 E) (Forall_cons _ (prod_51 E) (Forall_cons _ (prod_52 E) (Forall_cons _ (prod_53 E) (Forall_cons _ (prod_54 E) (Forall_cons _ (prod_55 E)
(Forall_cons _ (prod_56 E) (Forall_cons _ (prod_57 E) (Forall_cons _ (prod_58 E) (Forall_cons _ (prod_59 E) (Forall_cons _ (prod_60 E) (Forall_cons _
(prod_61 E) (Forall_cons _ (prod_62 E) (Forall_cons _ (prod_63 E) (Forall_cons _ (prod_64 E) (Forall_cons _ (prod_65 E) (Forall_cons _ (prod_66 E)
(Forall_cons _ (prod_67 E) (Forall_cons _ (prod_68 E) (Forall_cons _ (prod_69 E) (Forall_cons _ (prod_70 E) (Forall_cons _ (prod_71 E) (Forall_cons _
(prod_72 E) (Forall_cons _ (prod_73 E) (Forall_cons _ (prod_74 E) (Forall_cons _ (prod_75 E) (Forall_cons _ (prod_76 E) (Forall_cons _ (prod_77 E)
(Forall_cons _ (prod_78 E) (Forall_cons _ (prod_79 E) (Forall_cons _ (prod_80 E) (Forall_cons _ (prod_81 E) (Forall_cons _ (prod_82 E) (Forall_cons _
(prod_83 E) (Forall_cons _ (prod_84 E) (Forall_cons _ (prod_85 E) (Forall_cons _ (prod_86 E) (Forall_cons _ (prod_87 E) (Forall_cons _ (prod_88 E)
(Forall_cons _ (prod_89 E) (Forall_cons _ (prod_90 E) (Forall_cons _ (prod_91 E) (Forall_cons _ (prod_92 E) (Forall_cons _ (prod_93 E) (Forall_cons _
(prod_94 E) (Forall_cons _ (prod_95 E) (Forall_cons _ (prod_96 E) (Forall_cons _ (prod_97 E) (Forall_cons _ (prod_98 E) (Forall_cons _ (prod_99 E)
(Forall_cons _ (prod_100 E) (Forall_cons _ (prod_101 E) (Forall_cons _ (prod_102 E) (Forall_cons _ (prod_103 E) (Forall_cons _ (prod_104 E)
(Forall_cons _ (prod_105 E) (Forall_cons _ (prod_106 E) (Forall_cons _ (prod_107 E) (Forall_cons _ (prod_108 E) (Forall_cons _ (prod_109 E)
(Forall_cons _ (prod_110 E) (Forall_cons _ (prod_111 E) (Forall_cons _ (prod_112 E) (Forall_cons _ (prod_113 E) (Forall_cons _ (prod_114 E)
(Forall_cons _ (prod_115 E) (Forall_cons _ (prod_116 E) (Forall_cons _ (prod_117 E) (Forall_cons _ (prod_118 E) (Forall_cons _ (prod_119 E)
(Forall_cons _ (prod_120 E) (Forall_cons _ (prod_121 E) (Forall_cons _ (prod_122 E) (Forall_cons _ (prod_123 E) (Forall_cons _ (prod_124 E)
(Forall_cons _ (prod_125 E) (Forall_cons _ (prod_126 E) (Forall_cons _ (prod_127 E) (Forall_cons _ (prod_128 E) (Forall_cons _ (prod_129 E)
(Forall_cons _ (prod_130 E) (Forall_cons _ (prod_131 E) (Forall_cons _ (prod_132 E) (Forall_cons _ (prod_133 E) (Forall_cons _ (prod_134 E)
(Forall_cons _ (prod_135 E) (Forall_cons _ (prod_136 E) (Forall_cons _ (prod_137 E) (Forall_cons _ (prod_138 E) (Forall_cons _ (prod_139 E)
(Forall_cons _ (prod_140 E) (Forall_cons _ (prod_141 E) (Forall_cons _ (prod_142 E) (Forall_cons _ (prod_143 E) (Forall_cons _ (prod_144 E)
(Forall_cons _ (prod_145 E) (Forall_cons _ (prod_146 E) (Forall_cons _ (prod_147 E) (Forall_cons _ (prod_148 E) (Forall_cons _ (prod_149 E)
(Forall_cons _ (prod_150 E) (Forall_cons _ (prod_151 E) (Forall_cons _ (prod_152 E) (Forall_cons _ (prod_153 E) (Forall_cons _ (prod_154 E)
(Forall_cons _ (prod_155 E) (Forall_cons _ (prod_156 E) (Forall_cons _ (prod_157 E) (Forall_cons _ (prod_158 E) (Forall_cons _ (prod_159 E)
(Forall_cons _ (prod_160 E) (Forall_cons _ (prod_161 E) (Forall_cons _ (prod_162 E) (Forall_cons _ (prod_163 E) (Forall_cons _ (prod_164 E)
(Forall_cons _ (prod_165 E) (Forall_cons _ (prod_166 E) (Forall_cons _ (prod_167 E) (Forall_cons _ (prod_168 E) (Forall_cons _ (prod_169 E)
(Forall_cons _ (prod_170 E) (Forall_cons _ (prod_171 E) (Forall_cons _ (prod_172 E) (Forall_cons _ (prod_173 E) (Forall_cons _ (prod_174 E)
(Forall_cons _ (prod_175 E) (Forall_cons _ (prod_176 E) (Forall_cons _ (prod_177 E) (Forall_cons _ (prod_178 E) (Forall_cons _ (prod_179 E)
(Forall_cons _ (prod_180 E) (Forall_cons _ (prod_181 E) (Forall_cons _ (prod_182 E) (Forall_cons _ (prod_183 E) (Forall_cons _ (prod_184 E)
(Forall_cons _ (prod_185 E) (Forall_cons _ (prod_186 E) (Forall_cons _ (prod_187 E) (Forall_cons _ (prod_188 E) (Forall_cons _ (prod_189 E)
(Forall_cons _ (prod_190 E) (Forall_cons _ (prod_191 E) (Forall_cons _ (prod_192 E) (Forall_cons _ (prod_193 E) (Forall_cons _ (prod_194 E)
(Forall_cons _ (prod_195 E) (Forall_cons _ (prod_196 E) (Forall_cons _ (prod_197 E) (Forall_cons _ (prod_198 E) (Forall_cons _ (prod_199 E)
(Forall_cons _ (prod_200 E) (Forall_cons _ (prod_201 E) (Forall_cons _ (prod_202 E) (Forall_cons _ (prod_203 E) (Forall_cons _ (prod_204 E)
(Forall_cons _ (prod_205 E) (Forall_cons _ (prod_206 E) (Forall_cons _ (prod_207 E) (Forall_cons _ (prod_208 E) (Forall_cons _ (prod_209 E)
(Forall_cons _ (prod_210 E) (Forall_cons _ (prod_211 E) (Forall_cons _ (prod_212 E) (Forall_cons _ (prod_213 E) (Forall_cons _ (prod_214 E)
(Forall_cons _ (prod_215 E) (Forall_cons _ (prod_216 E) (Forall_cons _ (prod_217 E) (Forall_cons _ (prod_218 E) (Forall_cons _ (prod_219 E)
(Forall_cons _ (prod_220 E) (Forall_cons _ (prod_221 E) (Forall_cons _ (prod_222 E) (Forall_cons _ (prod_223 E) (Forall_cons _ (prod_224 E)
(Forall_cons _ (prod_225 E) (Forall_cons _ (prod_226 E) (Forall_cons _ (prod_227 E) (Forall_cons _ (prod_228 E) (Forall_cons _ (prod_229 E)
(Forall_cons _ (prod_230 E) (Forall_cons _ (prod_231 E) (Forall_cons _ (prod_232 E) (Forall_cons _ (prod_233 E) (Forall_cons _ (prod_234 E)
(Forall_cons _ (prod_235 E) (Forall_cons _ (prod_236 E) (Forall_cons _ (prod_237 E) (Forall_cons _ (prod_238 E) (Forall_cons _ (prod_239 E)
(Forall_cons _ (prod_240 E) (Forall_cons _ (prod_241 E) (Forall_cons _ (prod_242 E) (Forall_cons _ (prod_243 E) (Forall_cons _ (prod_244 E)
(Forall_cons _ (prod_245 E) (Forall_cons _ (prod_246 E) (Forall_cons _ (prod_247 E) (Forall_cons _ (prod_248 E) (Forall_cons _ (prod_249 E)
(Forall_cons _ (prod_250 E) (Forall_cons _ (prod_251 E) (Forall_cons _ (prod_252 E) (Forall_cons _ (prod_253 E) (Forall_cons _ (prod_254 E)
(Forall_cons _ (prod_255 E) (Forall_cons _ (prod_256 E) (Forall_cons _ (prod_257 E) (Forall_cons _ (prod_258 E) (Forall_cons _ (prod_259 E)
(Forall_cons _ (prod_260 E) (Forall_cons _ (prod_261 E) (Forall_cons _ (prod_262 E) (Forall_cons _ (prod_263 E) (Forall_cons _ (prod_264 E)
(Forall_cons _ (prod_265 E) (Forall_cons _ (prod_266 E) (Forall_cons _ (prod_267 E) (Forall_cons _ (prod_268 E) (Forall_cons _ (prod_269 E)
(Forall_cons _ (prod_270 E) (Forall_cons _ (prod_271 E) (Forall_cons _ (prod_272 E) (Forall_cons _ (prod_273 E) (Forall_cons _ (prod_274 E)
(Forall_cons _ (prod_275 E) (Forall_cons _ (prod_276 E) (Forall_cons _ (prod_277 E) (Forall_cons _ (prod_278 E) (Forall_cons _ (prod_279 E)
(Forall_cons _ (prod_280 E) (Forall_cons _ (prod_281 E) (Forall_cons _ (prod_282 E) (Forall_cons _ (prod_283 E) (Forall_cons _ (prod_284 E)
(Forall_cons _ (prod_285 E) (Forall_cons _ (prod_286 E) (Forall_cons _ (prod_287 E) (Forall_cons _ (prod_288 E) (Forall_cons _ (prod_289 E)
(Forall_cons _ (prod_290 E) (Forall_cons _ (prod_291 E) (Forall_cons _ (prod_292 E) (Forall_cons _ (prod_293 E) (Forall_cons _ (prod_294 E)
(Forall_cons _ (prod_295 E) (Forall_cons _ (prod_296 E) (Forall_cons _ (prod_297 E) (Forall_cons _ (prod_298 E) (Forall_cons _ (prod_299 E)
(Forall_cons _ (prod_300 E) (Forall_cons _ (prod_301 E) (Forall_cons _ (prod_302 E) (Forall_cons _ (prod_303 E) (Forall_cons _ (prod_304 E)
(Forall_cons _ (prod_305 E) (Forall_cons _ (prod_306 E) (Forall_cons _ (prod_307 E) (Forall_cons _ (prod_308 E) (Forall_cons _ (prod_309 E)
(Forall_cons _ (prod_310 E) (Forall_cons _ (prod_311 E) (Forall_cons _ (prod_312 E) (Forall_cons _ (prod_313 E) (Forall_cons _ (prod_314 E)
(Forall_cons _ (prod_315 E) (Forall_cons _ (prod_316 E) (Forall_cons _ (prod_317 E) (Forall_cons _ (prod_318 E) (Forall_cons _ (prod_319 E)
(Forall_cons _ (prod_320 E) (Forall_cons _ (prod_321 E) (Forall_cons _ (prod_322 E) (Forall_cons _ (prod_323 E) (Forall_cons _ (prod_324 E)
(Forall_cons _ (prod_325 E) (Forall_cons _ (prod_326 E) (Forall_cons _ (prod_327 E) (Forall_cons _ (prod_328 E) (Forall_cons _ (prod_329 E)
(Forall_cons _ (prod_330 E) (Forall_cons _ (prod_331 E) (Forall_cons _ (prod_332 E) (Forall_cons _ (prod_333 E) (Forall_cons _ (prod_334 E)
(Forall_cons _ (prod_335 E) (Forall_cons _ (prod_336 E) (Forall_cons _ (prod_337 E) (Forall_cons _ (prod_338 E) (Forall_cons _ (prod_339 E)
(Forall_cons _ (prod_340 E) (Forall_cons _ (prod_341 E) (Forall_cons _ (prod_342 E) (Forall_cons _ (prod_343 E) (Forall_cons _ (prod_344 E)
(Forall_nil _)))))))))))))))))))))))))))))))))))))))))))))))))))))))))))))))))))))))))))))))))))))))))))))))))))))))))))))))))))))))))))))))))))))))))
))))))))))))))))))))))))))))))))))))))))))))))))))))))))))))))))))))))))))))))))))))))))))))))))))))))))))))))))))))))))))))))))))))))))))))))))))))))
)))))))))))))))))))))))))))))))))))))))))))))))))))))))))). Qed.
Lemma ids_all : forallb (fun e => existsb (Pos.eqb (fst e)) prod_ids) (PM.elements prod_by_id) = true.
Proof. vm_compute. reflexivity. Qed.
Lemma no_prod_out : existsb (fun p => String.eqb (p_lhs p) "") bicep_prods = false.
Proof. vm_compute. reflexivity. Qed.
Lemma prod_found p : In (the_prod p) bicep_prods -> In p prod_ids.
Proof.
  intros H. unfold the_prod in H. destruct (PM.find p prod_by_id) as [x|] eqn:Hf.
  - apply PM.elements_correct in Hf. pose proof ids_all as Ha. rewrite forallb_forall in Ha. specialize (Ha _ Hf). cbn [fst] in Ha.
    apply existsb_exists in Ha as (q & Hq & He). apply Pos.eqb_eq in He as ->. exact Hq.
  - exfalso. pose proof no_prod_out as Ho. assert (Ht : existsb (fun p => String.eqb (p_lhs p) "") bicep_prods = true).
    { apply existsb_exists. exists no_prod. split; [exact H|reflexivity]. }
    rewrite Ho in Ht. discriminate.
Qed.

(** ** Terminals *)
Definition terminal_known (n : string) : bool :=
  match assoc n term_kinds with
  | Some _ => existsb (String.eqb n) open_terminals
  | None => negb (existsb (String.eqb n) open_terminals) &&
      (existsb (String.eqb n) symbols || existsb (String.eqb n) keywords && negb (String.eqb n "existing"))
  end.
Lemma terminals_known : forallb (fun t => mem_str (t_name t) ignored || terminal_known (t_name t)) sorted_terminals = true.
Proof. vm_compute. reflexivity. Qed.
Lemma known_terminal E n v : tok_ok E n v -> terminal_known n = true.
Proof.
  intros (acc & t & Hin & <- & Hig & _). pose proof terminals_known as H. rewrite forallb_forall in H. specialize (H t Hin). cbv beta in H. rewrite Hig in H. exact H.
Qed.

Section Texts.
  Variable E : pyenv.
  Lemma sealed_app_chars x s : Forall (fun c => c <> 39%N) x -> sealed s -> sealed (x ++ s).
  Proof. induction 1; intros Hs; cbn [app]; [exact Hs|]. apply sealed_char; auto. Qed.
  Lemma sealed_interpolation v : tok_ok E "QUOTED_INTERPOLATION" v -> exists b, v = quote b /\ sealed b.
  Proof.
    intros H. apply tok_ok_lang in H as (top & H). rewrite re_named_qi in H. unfold r_QUOTED_INTERPOLATION in H. cbn [rseq] in H.
    apply seq_inv in H as (x & y & -> & Hx & H). apply look_inv in Hx as ->.
    apply seq_inv in H as (x & z & -> & Hx & H). apply lang_rc_inv in Hx as ->.
    apply seq_inv in H as (b & w & -> & Hb & H). apply lang_rc_inv in H as ->. exists b. split; [reflexivity|]. clear -Hb.
    match type of Hb with lang _ _ ?r _ => remember r as q eqn:Hq end. revert Hq.
    induction Hb as [| | | | |g a|g a s t Hs _ Ht IHt| | |]; intros Hq; try discriminate Hq; [constructor|].
    injection Hq as -> ->. specialize (IHt eq_refl). cbn [ralt rseq] in Hs.
    apply alt_inv in Hs as [Hs|Hs]; [|apply alt_inv in Hs as [Hs|Hs]].
    - apply seq_inv in Hs as (x & y & -> & Hx & Hs). apply lang_rc_inv in Hx as ->. apply seq_inv in Hs as (b & y' & -> & _ & Hs). apply lang_rc_inv in Hs as ->.
      rewrite <- !app_assoc. apply sealed_code. exact IHt.
    - apply lang_rc_inv in Hs as ->. apply sealed_quote. exact IHt.
    - apply set_inv in Hs as (c & -> & Hc). cbn [app]. apply sealed_char; [|exact IHt]. intros ->. vm_compute in Hc. discriminate.
  Qed.
  Lemma sealed_simple v : tok_ok E "QUOTED_STRING" v -> exists b, v = quote b /\ sealed b.
  Proof.
    intros H. apply tok_ok_lang in H as (top & H). rewrite re_named_qs in H. unfold r_QUOTED_STRING in H. cbn [rseq] in H.
    apply seq_inv in H as (x & y & -> & Hx & H). apply lang_rc_inv in Hx as ->.
    apply seq_inv in H as (x & z & -> & Hx & H). apply seq_inv in H as (b & w & -> & Hb & H).
    apply lang_rc_inv in H as ->. exists (x ++ b)%list. split; [unfold quote; rewrite <- app_assoc; reflexivity|].
    apply set_inv in Hx as (c & -> & Hc). apply lang_star_set in Hb. cbn [app]. apply sealed_char; [intros ->; vm_compute in Hc; discriminate|].
    rewrite <- (app_nil_r b). apply sealed_app_chars; [|constructor]. revert Hb. apply Forall_impl. intros d Hd ->. vm_compute in Hd. discriminate.
  Qed.

  Lemma existsb_In n l : existsb (String.eqb n) l = true -> In n l.
  Proof. intros H. apply existsb_exists in H as (m & Hm & He). apply String.eqb_eq in He as ->. exact Hm. Qed.
  Lemma leaf_like k t : ttype k = u (tname t) -> tval k = text t -> like (TTok k) (leaf t).
  Proof. intros H1 H2. apply like_tok; [left; exact H1|exact H2]. Qed.
  Lemma one_word n k t : tval k = text t -> token_ok E t -> words E [(n, k)] [t].
  Proof. intros H1 H2. constructor; [split; assumption|constructor]. Qed.
  Ltac easy_term := split; [apply one_word; [reflexivity||assumption|assumption||exact I]|apply leaf_like; [assumption|reflexivity||assumption]].
  Lemma terminal_interp n k t : known_tok E (n, k) -> interp E (kind_of (T n)) t [(n, k)] (TTok k).
  Proof.
    intros [Hty Hok]. cbn [fst snd] in *. pose proof (known_terminal E n _ Hok) as Hk. pose proof (tok_lexeme E n _ Hok) as Hl.
    unfold kind_of. unfold terminal_known in Hk. destruct (assoc n term_kinds) as [kd|] eqn:Ha.
    - apply existsb_In in Hk. unfold open_terminals in Hk. cbn [In] in Hk.
      repeat match type of Hk with _ \/ _ => destruct Hk as [Hk|Hk] end; [..|destruct Hk]; subst n; vm_compute in Ha; injection Ha as <-; cbn [interp].
      + inversion Hl as [? D| | | | | | | | | | | |]; subst; [discriminate D|]. exists (tval k). easy_term.
      + destruct (sealed_interpolation _ Hok) as (c & Hc & Hs). exists c. easy_term.
      + destruct (sealed_simple _ Hok) as (c & Hc & Hs). exists c. split; [apply one_word; assumption|]. apply like_tok; [right; split; [assumption|reflexivity]|exact Hc].
      + inversion Hl as [? D| | | |b En Hm| | | | | | | |]; subst; [discriminate D|]. exists b. symmetry in Hm. easy_term.
      + inversion Hl as [? D| | | | | | | | | | | |]; subst; [discriminate D|]. exists (tval k). easy_term.
      + inversion Hl as [? D| | | | | |ns nm Hns Hnm En Hv| | | | | |]; subst; [discriminate D|]. exists (ns ++ nm)%list.
        assert (Hv' : tval k = text (Fun (ns ++ nm))) by (cbn [text]; rewrite <- app_assoc; auto).
        assert (Ht : token_ok E (Fun (ns ++ nm))) by (exists ns, nm; split; [reflexivity|]; split; [destruct Hns as [->|[->| ->]]; cbn; auto|assumption]).
        split; [apply one_word; assumption|apply leaf_like; assumption].
      + inversion Hl as [? D| | | | | | |ns nm Hns Hnm En Hv| | | | |]; subst; [discriminate D|]. exists (ns ++ nm)%list.
        assert (Ht : token_ok E (Deco (ns ++ nm))) by (exists ns, nm; split; [reflexivity|]; split; [destruct Hns as [->| ->]; cbn; auto|assumption]).
        split; [apply one_word; [symmetry; assumption|assumption]|apply leaf_like; [assumption|symmetry; assumption]].
      + inversion Hl as [? D| | | | | | | | | | | |]; subst; [discriminate D|]. exists (tval k).
        assert (Ht : token_ok E (ListFun (tval k))) by (split; assumption). easy_term.
      + inversion Hl as [? D| | | | | | | | |En Hv| | |]; subst; [discriminate D|]. symmetry in Hv. easy_term.
      + inversion Hl as [? D| | | | | | | | | |En Hv| |]; subst; [discriminate D|]. symmetry in Hv.
        assert (Ht : token_ok E (Kw "existing")) by (cbn; tauto). easy_term.
      + inversion Hl as [? D| | | | | | | | | | | |]; subst; [discriminate D|]. exists (tval k). apply one_word; [reflexivity|assumption].
      + inversion Hl as [? D| | | | | | | | | | | |]; subst; [discriminate D|]. exists (tval k). apply one_word; [reflexivity|assumption].
    - apply andb_true_iff in Hk as [Ho Hk]. apply negb_true_iff in Ho.
      assert (Hv : tval k = u n). { inversion Hl; subst; try discriminate Ho; [congruence]. }
      destruct (existsb (String.eqb n) symbols) eqn:Hs; cbn [interp].
      + split; [|intros l t'; reflexivity]. apply one_word; [exact Hv|]. apply existsb_In. exact Hs.
      + cbn [orb] in Hk. apply andb_true_iff in Hk as [Hk He]. apply negb_true_iff in He. apply existsb_In in Hk.
        split; [apply one_word; assumption|]. split; [|intros l t'; reflexivity]. apply leaf_like; [|exact Hv]. cbn [tname]. rewrite He. exact Hty.
  Qed.

  (** ** Derivations *)
  Inductive children (t : positive) : list kind -> list cst -> Prop :=
  | children_nil : children t [] []
  | children_cons k ks c cs : interp E k (behind (flat_map leaves cs) t) (leaves c) (sv_tree (shape c)) -> children t ks cs -> children t (k :: ks) (c :: cs).
  Lemma all_in_children ks : forall t P cs, all_in E ks t P -> children t ks cs -> P (map (fun c => sv_tree (shape c)) cs) (flat_map leaves cs).
  Proof.
    induction ks as [|k ks IH]; intros t P cs H HF; inversion HF as [|? ? c cs' Hc Hcs]; subst; [exact H|]. cbn [map flat_map]. cbn [all_in] in H.
    exact (IH t _ cs' H Hcs _ _ Hc).
  Qed.
  Lemma unparse : forall c s t, Grammar.wf s c -> fol t c -> Forall (known_tok E) (leaves c) -> interp E (kind_of s) t (leaves c) (sv_tree (shape c)).
  Proof.
    fix IH 1. intros c s t Hw Hf Hk. destruct c as [n k|p cs].
    - inversion Hw; subst. cbn [shape sv_tree leaves]. cbn [leaves] in Hk. inversion Hk; subst. apply terminal_interp. assumption.
    - inversion Hw as [|p' cs' Hin Hall]; subst. inversion Hf as [|? ? ? Hr Hfs]; subst.
      assert (Hsh : shape (Br p cs) = propagate (map shape cs) (build_node (the_prod p) (select (p_raw (the_prod p)) (map shape cs)))) by reflexivity.
      rewrite Hsh, sv_tree_propagate, build_built, select_select_t. change (leaves (Br p cs)) with (flat_map leaves cs). rewrite map_map.
      pose proof (prods_all E) as Hps. rewrite Forall_forall in Hps. specialize (Hps p (prod_found p Hin)).
      refine (all_in_children _ t (fun ts w => interp E _ t w (put _ (built _ _ _ (select_t _ ts)))) cs (Hps _ t Hr) _).
      clear Hw Hin Hsh Hps Hr Hf. cbn [leaves] in Hk. revert Hall Hk Hfs. generalize (p_rhs (the_prod p)). revert cs.
      fix IHcs 1. intros [|c cs] rhs Hall Hk Hfs; inversion Hall as [|s0 c0 l0 l1 Hc Hcs]; subst; cbn [map]; constructor.
      + inversion Hfs; subst. cbn [flat_map] in Hk. apply Forall_app in Hk. apply IH; tauto.
      + inversion Hfs; subst. cbn [flat_map] in Hk. apply Forall_app in Hk. apply IHcs; tauto.
  Qed.

  (** ** Texts *)
  Lemma reads_words w s line : reads E w s line -> forall ts, words E w ts -> reads_as E ts s.
  Proof.
    induction 1 as [s line Hb|ig n t ts rest line Hb _ _ _ _ _ _ IH]; intros us Hw; inversion Hw as [|? v ? vs [Hv Hok] Hvs]; subst; [constructor; exact Hb|].
    cbn [snd] in Hv. rewrite Hv. apply reads_as_tok; auto.
  Qed.
  Theorem accepted_program s x : lark_parse E s = Ok x ->
    exists p, program_shaped p = true /\ reads_as E (program_tokens p) s /\ like x (program_tree p).
  Proof.
    unfold lark_parse, bind. destruct (parse_cst E s) as [c|e] eqn:Hc; [|discriminate].
    intros H. inversion H; subst. destruct (parse_cst_wf E s c Hc) as [Hw Hr].
    destruct (unparse c _ 1%positive Hw (parse_fol E s c Hc) (reads_known _ _ _ _ Hr)) as (p & W & L & S).
    exists p. split; [exact S|]. split; [exact (reads_words _ _ _ Hr _ W)|exact L].
  Qed.
End Texts.
