(* V2OwnFacts.v - dispatch to, and round trip through, the decoder of each kind. *)
From Verif Require Import Base BaseFacts.
From Verif Require Export V2OwnSpec V2DecTame.
Local Open Scope N_scope.

Lemma at_nth (b : list N) t : b <> [] -> nth 0 b 0 = t -> at_ b 0 = Ok (E:=GTPV2Error) t.
Proof. destruct b; [contradiction|]. cbn. intros _ ->. reflexivity. Qed.
Lemma in_codes (t : N) l : existsb (N.eqb t) l = true -> In t l.
Proof. intros H. apply existsb_exists in H. destruct H as (x & Hx & E). apply N.eqb_eq in E. subst. exact Hx. Qed.
Lemma dispatch_own m e b : b <> [] -> nth 0 b 0 <> 169 -> has_code e (nth 0 b 0) -> decode_one (decoder m) m b = own_decode e m b.
Proof.
  intros Hb N169 H. destruct e as [x|x|x|x|x|x|x|x|x|x|x|x|x|x|x|x|x|x|x|x|x|x|x|x|x|x|x|x|x|x|x|x|x|x|x|x|x|x|x|x|x|x|x|x|x|x|x|x|x|x|x|x|x|x|x|x|x|x|x|x|x|x|x|x|x|x|x|x|x|x|x|x|x|x|x|x|x|x|x|x|x|x|x|x|x|x|x|x|x|x|x|x|x|x|x|x|x|x|x|x|x|x|x|x|x|x|x|x|x|x|x|x|x|x|x|x|x|x|x|x|x|x|x|x|x|x|x|x|x|x|x|x|x|x|x|x|x|x|x|x|x|x|x|x|x|x]; unfold own_decode; cbn [has_code] in H.
  - apply disp_1. apply at_nth; assumption.
  - apply disp_2. apply at_nth; assumption.
  - apply disp_3. apply at_nth; assumption.
  - apply disp_51. apply at_nth; assumption.
  - apply disp_56. apply at_nth; assumption.
  - apply disp_71. apply at_nth; assumption.
  - apply disp_72. apply at_nth; assumption.
  - apply disp_73. apply at_nth; assumption.
  - apply disp_74. apply at_nth; assumption.
  - apply disp_75. apply at_nth; assumption.
  - apply disp_76. apply at_nth; assumption.
  - apply disp_77. apply at_nth; assumption.
  - apply disp_78. apply at_nth; assumption.
  - apply disp_79. apply at_nth; assumption.
  - apply disp_80. apply at_nth; assumption.
  - apply disp_81. apply at_nth; assumption.
  - apply disp_82. apply at_nth; assumption.
  - apply disp_83. apply at_nth; assumption.
  - apply disp_84. apply at_nth; assumption.
  - apply disp_85. apply at_nth; assumption.
  - apply disp_86. apply at_nth; assumption.
  - apply disp_87. apply at_nth; assumption.
  - apply disp_88. apply at_nth; assumption.
  - apply disp_89. apply at_nth; assumption.
  - apply disp_90. apply at_nth; assumption.
  - apply disp_91. apply at_nth; assumption.
  - apply disp_92. apply at_nth; assumption.
  - apply disp_93. apply at_nth; assumption.
  - apply disp_94. apply at_nth; assumption.
  - apply disp_95. apply at_nth; assumption.
  - apply disp_96. apply at_nth; assumption.
  - apply disp_97. apply at_nth; assumption.
  - apply disp_99. apply at_nth; assumption.
  - apply disp_100. apply at_nth; assumption.
  - destruct x as [x|x|x|x|x|x]; [apply disp_107|apply disp_106|apply disp_108|apply disp_104|apply disp_103|apply disp_105]; apply at_nth; assumption.
  - apply disp_109. apply at_nth; assumption.
  - apply disp_110. apply at_nth; assumption.
  - apply disp_111. apply at_nth; assumption.
  - apply disp_112. apply at_nth; assumption.
  - apply disp_113. apply at_nth; assumption.
  - apply disp_114. apply at_nth; assumption.
  - apply disp_115. apply at_nth; assumption.
  - apply disp_116. apply at_nth; assumption.
  - apply disp_117. apply at_nth; assumption.
  - apply disp_118. apply at_nth; assumption.
  - apply disp_119. apply at_nth; assumption.
  - apply disp_120. apply at_nth; assumption.
  - apply disp_121. apply at_nth; assumption.
  - apply disp_123. apply at_nth; assumption.
  - apply disp_124. apply at_nth; assumption.
  - apply disp_125. apply at_nth; assumption.
  - apply disp_126. apply at_nth; assumption.
  - apply disp_127. apply at_nth; assumption.
  - apply disp_128. apply at_nth; assumption.
  - apply disp_129. apply at_nth; assumption.
  - apply disp_131. apply at_nth; assumption.
  - apply disp_132. apply at_nth; assumption.
  - apply disp_133. apply at_nth; assumption.
  - apply disp_134. apply at_nth; assumption.
  - apply disp_135. apply at_nth; assumption.
  - apply disp_136. apply at_nth; assumption.
  - apply disp_137. apply at_nth; assumption.
  - apply disp_139. apply at_nth; assumption.
  - apply disp_138. apply at_nth; assumption.
  - apply disp_140. apply at_nth; assumption.
  - apply disp_141. apply at_nth; assumption.
  - apply disp_142. apply at_nth; assumption.
  - apply disp_143. apply at_nth; assumption.
  - apply disp_144. apply at_nth; assumption.
  - apply disp_145. apply at_nth; assumption.
  - apply disp_146. apply at_nth; assumption.
  - apply disp_147. apply at_nth; assumption.
  - apply disp_148. apply at_nth; assumption.
  - apply disp_149. apply at_nth; assumption.
  - apply disp_150. apply at_nth; assumption.
  - apply disp_151. apply at_nth; assumption.
  - apply disp_152. apply at_nth; assumption.
  - apply disp_153. apply at_nth; assumption.
  - apply disp_154. apply at_nth; assumption.
  - apply disp_155. apply at_nth; assumption.
  - apply disp_156. apply at_nth; assumption.
  - apply disp_157. apply at_nth; assumption.
  - apply disp_158. apply at_nth; assumption.
  - apply disp_159. apply at_nth; assumption.
  - apply disp_160. apply at_nth; assumption.
  - apply disp_162. apply at_nth; assumption.
  - apply disp_163. apply at_nth; assumption.
  - apply disp_164. apply at_nth; assumption.
  - apply disp_165. apply at_nth; assumption.
  - apply disp_166. apply at_nth; assumption.
  - apply disp_167. apply at_nth; assumption.
  - apply disp_168. apply at_nth; assumption.
  - contradiction.
  - apply disp_170. apply at_nth; assumption.
  - apply disp_171. apply at_nth; assumption.
  - apply disp_172. apply at_nth; assumption.
  - apply disp_173. apply at_nth; assumption.
  - apply disp_174. apply at_nth; assumption.
  - apply disp_175. apply at_nth; assumption.
  - apply disp_176. apply at_nth; assumption.
  - apply disp_177. apply at_nth; assumption.
  - apply disp_178. apply at_nth; assumption.
  - apply disp_179. apply at_nth; assumption.
  - apply disp_180. apply at_nth; assumption.
  - apply disp_181. apply at_nth; assumption.
  - apply disp_182. apply at_nth; assumption.
  - apply disp_183. apply at_nth; assumption.
  - apply disp_184. apply at_nth; assumption.
  - apply disp_185. apply at_nth; assumption.
  - apply disp_186. apply at_nth; assumption.
  - apply disp_187. apply at_nth; assumption.
  - apply disp_188. apply at_nth; assumption.
  - apply disp_189. apply at_nth; assumption.
  - apply disp_190. apply at_nth; assumption.
  - apply disp_191. apply at_nth; assumption.
  - apply disp_192. apply at_nth; assumption.
  - apply disp_193. apply at_nth; assumption.
  - apply disp_194. apply at_nth; assumption.
  - apply disp_195. apply at_nth; assumption.
  - apply disp_196. apply at_nth; assumption.
  - apply disp_197. apply at_nth; assumption.
  - apply disp_198. apply at_nth; assumption.
  - apply disp_199. apply at_nth; assumption.
  - apply disp_200. apply at_nth; assumption.
  - apply disp_201. apply at_nth; assumption.
  - apply disp_202. apply at_nth; assumption.
  - apply disp_203. apply at_nth; assumption.
  - apply disp_204. apply at_nth; assumption.
  - apply disp_205. apply at_nth; assumption.
  - apply disp_206. apply at_nth; assumption.
  - apply disp_207. apply at_nth; assumption.
  - apply disp_208. apply at_nth; assumption.
  - apply disp_209. apply at_nth; assumption.
  - apply disp_210. apply at_nth; assumption.
  - apply disp_211. apply at_nth; assumption.
  - apply disp_212. apply at_nth; assumption.
  - apply disp_213. apply at_nth; assumption.
  - apply disp_214. apply at_nth; assumption.
  - apply disp_215. apply at_nth; assumption.
  - apply disp_216. apply at_nth; assumption.
  - apply disp_217. apply at_nth; assumption.
  - apply disp_218. apply at_nth; assumption.
  - apply disp_219. apply at_nth; assumption.
  - apply disp_254. apply at_nth; assumption.
  - apply disp_255. apply at_nth; assumption.
  - unfold decode_one. rewrite (at_nth b _ Hb eq_refl), bindOk. set (t := nth 0 b 0) in *. clearbody t.
    destruct (N.eqb_spec t 1); [exfalso; apply H; subst t; apply in_codes; reflexivity|].
    destruct (N.eqb_spec t 2); [exfalso; apply H; subst t; apply in_codes; reflexivity|].
    destruct (N.eqb_spec t 3); [exfalso; apply H; subst t; apply in_codes; reflexivity|].
    destruct (N.eqb_spec t 51); [exfalso; apply H; subst t; apply in_codes; reflexivity|].
    destruct (N.eqb_spec t 56); [exfalso; apply H; subst t; apply in_codes; reflexivity|].
    destruct (N.eqb_spec t 71); [exfalso; apply H; subst t; apply in_codes; reflexivity|].
    destruct (N.eqb_spec t 72); [exfalso; apply H; subst t; apply in_codes; reflexivity|].
    destruct (N.eqb_spec t 73); [exfalso; apply H; subst t; apply in_codes; reflexivity|].
    destruct (N.eqb_spec t 74); [exfalso; apply H; subst t; apply in_codes; reflexivity|].
    destruct (N.eqb_spec t 75); [exfalso; apply H; subst t; apply in_codes; reflexivity|].
    destruct (N.eqb_spec t 76); [exfalso; apply H; subst t; apply in_codes; reflexivity|].
    destruct (N.eqb_spec t 77); [exfalso; apply H; subst t; apply in_codes; reflexivity|].
    destruct (N.eqb_spec t 78); [exfalso; apply H; subst t; apply in_codes; reflexivity|].
    destruct (N.eqb_spec t 79); [exfalso; apply H; subst t; apply in_codes; reflexivity|].
    destruct (N.eqb_spec t 80); [exfalso; apply H; subst t; apply in_codes; reflexivity|].
    destruct (N.eqb_spec t 81); [exfalso; apply H; subst t; apply in_codes; reflexivity|].
    destruct (N.eqb_spec t 82); [exfalso; apply H; subst t; apply in_codes; reflexivity|].
    destruct (N.eqb_spec t 83); [exfalso; apply H; subst t; apply in_codes; reflexivity|].
    destruct (N.eqb_spec t 84); [exfalso; apply H; subst t; apply in_codes; reflexivity|].
    destruct (N.eqb_spec t 85); [exfalso; apply H; subst t; apply in_codes; reflexivity|].
    destruct (N.eqb_spec t 86); [exfalso; apply H; subst t; apply in_codes; reflexivity|].
    destruct (N.eqb_spec t 87); [exfalso; apply H; subst t; apply in_codes; reflexivity|].
    destruct (N.eqb_spec t 88); [exfalso; apply H; subst t; apply in_codes; reflexivity|].
    destruct (N.eqb_spec t 89); [exfalso; apply H; subst t; apply in_codes; reflexivity|].
    destruct (N.eqb_spec t 90); [exfalso; apply H; subst t; apply in_codes; reflexivity|].
    destruct (N.eqb_spec t 91); [exfalso; apply H; subst t; apply in_codes; reflexivity|].
    destruct (N.eqb_spec t 92); [exfalso; apply H; subst t; apply in_codes; reflexivity|].
    destruct (N.eqb_spec t 93); [exfalso; apply H; subst t; apply in_codes; reflexivity|].
    destruct (N.eqb_spec t 94); [exfalso; apply H; subst t; apply in_codes; reflexivity|].
    destruct (N.eqb_spec t 95); [exfalso; apply H; subst t; apply in_codes; reflexivity|].
    destruct (N.eqb_spec t 96); [exfalso; apply H; subst t; apply in_codes; reflexivity|].
    destruct (N.eqb_spec t 97); [exfalso; apply H; subst t; apply in_codes; reflexivity|].
    destruct (N.eqb_spec t 99); [exfalso; apply H; subst t; apply in_codes; reflexivity|].
    destruct (N.eqb_spec t 100); [exfalso; apply H; subst t; apply in_codes; reflexivity|].
    destruct ((103 <=? t) && (t <=? 108)) eqn:E; [exfalso; apply andb_prop in E; destruct E as [E1 E2]; apply N.leb_le in E1, E2; apply H; assert (K : t = 103 \/ t = 104 \/ t = 105 \/ t = 106 \/ t = 107 \/ t = 108) by lia; destruct K as [->|[->|[->|[->|[->| ->]]]]]; apply in_codes; reflexivity|].
    destruct (N.eqb_spec t 109); [exfalso; apply H; subst t; apply in_codes; reflexivity|].
    destruct (N.eqb_spec t 110); [exfalso; apply H; subst t; apply in_codes; reflexivity|].
    destruct (N.eqb_spec t 111); [exfalso; apply H; subst t; apply in_codes; reflexivity|].
    destruct (N.eqb_spec t 112); [exfalso; apply H; subst t; apply in_codes; reflexivity|].
    destruct (N.eqb_spec t 113); [exfalso; apply H; subst t; apply in_codes; reflexivity|].
    destruct (N.eqb_spec t 114); [exfalso; apply H; subst t; apply in_codes; reflexivity|].
    destruct (N.eqb_spec t 115); [exfalso; apply H; subst t; apply in_codes; reflexivity|].
    destruct (N.eqb_spec t 116); [exfalso; apply H; subst t; apply in_codes; reflexivity|].
    destruct (N.eqb_spec t 117); [exfalso; apply H; subst t; apply in_codes; reflexivity|].
    destruct (N.eqb_spec t 118); [exfalso; apply H; subst t; apply in_codes; reflexivity|].
    destruct (N.eqb_spec t 119); [exfalso; apply H; subst t; apply in_codes; reflexivity|].
    destruct (N.eqb_spec t 120); [exfalso; apply H; subst t; apply in_codes; reflexivity|].
    destruct (N.eqb_spec t 121); [exfalso; apply H; subst t; apply in_codes; reflexivity|].
    destruct (N.eqb_spec t 123); [exfalso; apply H; subst t; apply in_codes; reflexivity|].
    destruct (N.eqb_spec t 124); [exfalso; apply H; subst t; apply in_codes; reflexivity|].
    destruct (N.eqb_spec t 125); [exfalso; apply H; subst t; apply in_codes; reflexivity|].
    destruct (N.eqb_spec t 126); [exfalso; apply H; subst t; apply in_codes; reflexivity|].
    destruct (N.eqb_spec t 127); [exfalso; apply H; subst t; apply in_codes; reflexivity|].
    destruct (N.eqb_spec t 128); [exfalso; apply H; subst t; apply in_codes; reflexivity|].
    destruct (N.eqb_spec t 129); [exfalso; apply H; subst t; apply in_codes; reflexivity|].
    destruct (N.eqb_spec t 131); [exfalso; apply H; subst t; apply in_codes; reflexivity|].
    destruct (N.eqb_spec t 132); [exfalso; apply H; subst t; apply in_codes; reflexivity|].
    destruct (N.eqb_spec t 133); [exfalso; apply H; subst t; apply in_codes; reflexivity|].
    destruct (N.eqb_spec t 134); [exfalso; apply H; subst t; apply in_codes; reflexivity|].
    destruct (N.eqb_spec t 135); [exfalso; apply H; subst t; apply in_codes; reflexivity|].
    destruct (N.eqb_spec t 136); [exfalso; apply H; subst t; apply in_codes; reflexivity|].
    destruct (N.eqb_spec t 137); [exfalso; apply H; subst t; apply in_codes; reflexivity|].
    destruct (N.eqb_spec t 138); [exfalso; apply H; subst t; apply in_codes; reflexivity|].
    destruct (N.eqb_spec t 139); [exfalso; apply H; subst t; apply in_codes; reflexivity|].
    destruct (N.eqb_spec t 140); [exfalso; apply H; subst t; apply in_codes; reflexivity|].
    destruct (N.eqb_spec t 141); [exfalso; apply H; subst t; apply in_codes; reflexivity|].
    destruct (N.eqb_spec t 142); [exfalso; apply H; subst t; apply in_codes; reflexivity|].
    destruct (N.eqb_spec t 143); [exfalso; apply H; subst t; apply in_codes; reflexivity|].
    destruct (N.eqb_spec t 144); [exfalso; apply H; subst t; apply in_codes; reflexivity|].
    destruct (N.eqb_spec t 145); [exfalso; apply H; subst t; apply in_codes; reflexivity|].
    destruct (N.eqb_spec t 146); [exfalso; apply H; subst t; apply in_codes; reflexivity|].
    destruct (N.eqb_spec t 147); [exfalso; apply H; subst t; apply in_codes; reflexivity|].
    destruct (N.eqb_spec t 148); [exfalso; apply H; subst t; apply in_codes; reflexivity|].
    destruct (N.eqb_spec t 149); [exfalso; apply H; subst t; apply in_codes; reflexivity|].
    destruct (N.eqb_spec t 150); [exfalso; apply H; subst t; apply in_codes; reflexivity|].
    destruct (N.eqb_spec t 151); [exfalso; apply H; subst t; apply in_codes; reflexivity|].
    destruct (N.eqb_spec t 152); [exfalso; apply H; subst t; apply in_codes; reflexivity|].
    destruct (N.eqb_spec t 153); [exfalso; apply H; subst t; apply in_codes; reflexivity|].
    destruct (N.eqb_spec t 154); [exfalso; apply H; subst t; apply in_codes; reflexivity|].
    destruct (N.eqb_spec t 155); [exfalso; apply H; subst t; apply in_codes; reflexivity|].
    destruct (N.eqb_spec t 156); [exfalso; apply H; subst t; apply in_codes; reflexivity|].
    destruct (N.eqb_spec t 157); [exfalso; apply H; subst t; apply in_codes; reflexivity|].
    destruct (N.eqb_spec t 158); [exfalso; apply H; subst t; apply in_codes; reflexivity|].
    destruct (N.eqb_spec t 159); [exfalso; apply H; subst t; apply in_codes; reflexivity|].
    destruct (N.eqb_spec t 160); [exfalso; apply H; subst t; apply in_codes; reflexivity|].
    destruct (N.eqb_spec t 162); [exfalso; apply H; subst t; apply in_codes; reflexivity|].
    destruct (N.eqb_spec t 163); [exfalso; apply H; subst t; apply in_codes; reflexivity|].
    destruct (N.eqb_spec t 164); [exfalso; apply H; subst t; apply in_codes; reflexivity|].
    destruct (N.eqb_spec t 165); [exfalso; apply H; subst t; apply in_codes; reflexivity|].
    destruct (N.eqb_spec t 166); [exfalso; apply H; subst t; apply in_codes; reflexivity|].
    destruct (N.eqb_spec t 167); [exfalso; apply H; subst t; apply in_codes; reflexivity|].
    destruct (N.eqb_spec t 168); [exfalso; apply H; subst t; apply in_codes; reflexivity|].
    destruct (N.eqb_spec t 169); [exfalso; contradiction|].
    destruct (N.eqb_spec t 170); [exfalso; apply H; subst t; apply in_codes; reflexivity|].
    destruct (N.eqb_spec t 171); [exfalso; apply H; subst t; apply in_codes; reflexivity|].
    destruct (N.eqb_spec t 172); [exfalso; apply H; subst t; apply in_codes; reflexivity|].
    destruct (N.eqb_spec t 173); [exfalso; apply H; subst t; apply in_codes; reflexivity|].
    destruct (N.eqb_spec t 174); [exfalso; apply H; subst t; apply in_codes; reflexivity|].
    destruct (N.eqb_spec t 175); [exfalso; apply H; subst t; apply in_codes; reflexivity|].
    destruct (N.eqb_spec t 176); [exfalso; apply H; subst t; apply in_codes; reflexivity|].
    destruct (N.eqb_spec t 177); [exfalso; apply H; subst t; apply in_codes; reflexivity|].
    destruct (N.eqb_spec t 178); [exfalso; apply H; subst t; apply in_codes; reflexivity|].
    destruct (N.eqb_spec t 179); [exfalso; apply H; subst t; apply in_codes; reflexivity|].
    destruct (N.eqb_spec t 180); [exfalso; apply H; subst t; apply in_codes; reflexivity|].
    destruct (N.eqb_spec t 181); [exfalso; apply H; subst t; apply in_codes; reflexivity|].
    destruct (N.eqb_spec t 182); [exfalso; apply H; subst t; apply in_codes; reflexivity|].
    destruct (N.eqb_spec t 183); [exfalso; apply H; subst t; apply in_codes; reflexivity|].
    destruct (N.eqb_spec t 184); [exfalso; apply H; subst t; apply in_codes; reflexivity|].
    destruct (N.eqb_spec t 185); [exfalso; apply H; subst t; apply in_codes; reflexivity|].
    destruct (N.eqb_spec t 186); [exfalso; apply H; subst t; apply in_codes; reflexivity|].
    destruct (N.eqb_spec t 187); [exfalso; apply H; subst t; apply in_codes; reflexivity|].
    destruct (N.eqb_spec t 188); [exfalso; apply H; subst t; apply in_codes; reflexivity|].
    destruct (N.eqb_spec t 189); [exfalso; apply H; subst t; apply in_codes; reflexivity|].
    destruct (N.eqb_spec t 190); [exfalso; apply H; subst t; apply in_codes; reflexivity|].
    destruct (N.eqb_spec t 191); [exfalso; apply H; subst t; apply in_codes; reflexivity|].
    destruct (N.eqb_spec t 192); [exfalso; apply H; subst t; apply in_codes; reflexivity|].
    destruct (N.eqb_spec t 193); [exfalso; apply H; subst t; apply in_codes; reflexivity|].
    destruct (N.eqb_spec t 194); [exfalso; apply H; subst t; apply in_codes; reflexivity|].
    destruct (N.eqb_spec t 195); [exfalso; apply H; subst t; apply in_codes; reflexivity|].
    destruct (N.eqb_spec t 196); [exfalso; apply H; subst t; apply in_codes; reflexivity|].
    destruct (N.eqb_spec t 197); [exfalso; apply H; subst t; apply in_codes; reflexivity|].
    destruct (N.eqb_spec t 198); [exfalso; apply H; subst t; apply in_codes; reflexivity|].
    destruct (N.eqb_spec t 199); [exfalso; apply H; subst t; apply in_codes; reflexivity|].
    destruct (N.eqb_spec t 200); [exfalso; apply H; subst t; apply in_codes; reflexivity|].
    destruct (N.eqb_spec t 201); [exfalso; apply H; subst t; apply in_codes; reflexivity|].
    destruct (N.eqb_spec t 202); [exfalso; apply H; subst t; apply in_codes; reflexivity|].
    destruct (N.eqb_spec t 203); [exfalso; apply H; subst t; apply in_codes; reflexivity|].
    destruct (N.eqb_spec t 204); [exfalso; apply H; subst t; apply in_codes; reflexivity|].
    destruct (N.eqb_spec t 205); [exfalso; apply H; subst t; apply in_codes; reflexivity|].
    destruct (N.eqb_spec t 206); [exfalso; apply H; subst t; apply in_codes; reflexivity|].
    destruct (N.eqb_spec t 207); [exfalso; apply H; subst t; apply in_codes; reflexivity|].
    destruct (N.eqb_spec t 208); [exfalso; apply H; subst t; apply in_codes; reflexivity|].
    destruct (N.eqb_spec t 209); [exfalso; apply H; subst t; apply in_codes; reflexivity|].
    destruct (N.eqb_spec t 210); [exfalso; apply H; subst t; apply in_codes; reflexivity|].
    destruct (N.eqb_spec t 211); [exfalso; apply H; subst t; apply in_codes; reflexivity|].
    destruct (N.eqb_spec t 212); [exfalso; apply H; subst t; apply in_codes; reflexivity|].
    destruct (N.eqb_spec t 213); [exfalso; apply H; subst t; apply in_codes; reflexivity|].
    destruct (N.eqb_spec t 214); [exfalso; apply H; subst t; apply in_codes; reflexivity|].
    destruct (N.eqb_spec t 215); [exfalso; apply H; subst t; apply in_codes; reflexivity|].
    destruct (N.eqb_spec t 216); [exfalso; apply H; subst t; apply in_codes; reflexivity|].
    destruct (N.eqb_spec t 217); [exfalso; apply H; subst t; apply in_codes; reflexivity|].
    destruct (N.eqb_spec t 218); [exfalso; apply H; subst t; apply in_codes; reflexivity|].
    destruct (N.eqb_spec t 219); [exfalso; apply H; subst t; apply in_codes; reflexivity|].
    destruct (N.eqb_spec t 254); [exfalso; apply H; subst t; apply in_codes; reflexivity|].
    destruct (N.eqb_spec t 255); [exfalso; apply H; subst t; apply in_codes; reflexivity|].
    reflexivity.
Qed.
Lemma nest_2 e : (nest e <= 2)%nat.
Proof. destruct e; cbn; lia. Qed.
Lemma decoder_list m l : Forall (fun e => ie_wf e /\ routed e) l -> decoder m (encoder l) = Ok l.
Proof.
  intros H. rewrite <- (decoder_deep m (encoder l) (S (S (S (length (encoder l)))))) by lia. apply decode_ies_rt.
  eapply Forall_impl; [|exact H]. intros e [W R]. repeat split; [exact W|exact R|]. pose proof (nest_2 e). lia.
Qed.
Lemma decode_one_wf m e r : ie_wf e -> routed e -> decode_one (decoder m) m (ie_marshal e ++ r) = Ok e.
Proof.
  intros W R. set (s := ie_marshal e ++ r). rewrite <- (decoder_one m s s (S (S (length s)))) by lia.
  apply decode_one_rt. repeat split; [exact W|exact R|]. pose proof (nest_2 e). lia.
Qed.
Lemma own_rt m e r : ie_wf e -> (forall i, e <> IE_Unknown i) -> own_decode e m (ie_marshal e ++ r) = Ok e.
Proof.
  intros W U. destruct e as [x|x|x|x|x|x|x|x|x|x|x|x|x|x|x|x|x|x|x|x|x|x|x|x|x|x|x|x|x|x|x|x|x|x|x|x|x|x|x|x|x|x|x|x|x|x|x|x|x|x|x|x|x|x|x|x|x|x|x|x|x|x|x|x|x|x|x|x|x|x|x|x|x|x|x|x|x|x|x|x|x|x|x|x|x|x|x|x|x|x|x|x|x|x|x|x|x|x|x|x|x|x|x|x|x|x|x|x|x|x|x|x|x|x|x|x|x|x|x|x|x|x|x|x|x|x|x|x|x|x|x|x|x|x|x|x|x|x|x|x|x|x|x|x|x|x]; unfold own_decode; cbn [ie_wf] in W; unfold ie_marshal.
  - rewrite Imsi_rt by exact W. reflexivity.
  - rewrite Cause_rt by exact W. reflexivity.
  - rewrite Recovery_rt by exact W. reflexivity.
  - rewrite StnSr_rt by exact W. reflexivity.
  - rewrite SrvccCause_rt by exact W. reflexivity.
  - rewrite Apn_rt by exact W. reflexivity.
  - rewrite Ambr_rt by exact W. reflexivity.
  - rewrite Ebi_rt by exact W. reflexivity.
  - rewrite IpAddress_rt by exact W. reflexivity.
  - rewrite Mei_rt by exact W. reflexivity.
  - rewrite Msisdn_rt by exact W. reflexivity.
  - rewrite Indication_rt by exact W. reflexivity.
  - rewrite Pco_rt by exact W. reflexivity.
  - rewrite PdnAddressAllocation_rt by exact W. reflexivity.
  - rewrite BearerQos_rt by exact W. reflexivity.
  - rewrite FlowQos_rt by exact W. reflexivity.
  - rewrite RatType_rt by exact W. reflexivity.
  - rewrite ServingNetwork_rt by exact W. reflexivity.
  - rewrite BearerTft_rt by exact W. reflexivity.
  - rewrite TrafficAggregateDescription_rt by exact W. reflexivity.
  - rewrite Uli_rt by exact W. reflexivity.
  - rewrite Fteid_rt by exact W. reflexivity.
  - rewrite Tmsi_rt by exact W. reflexivity.
  - rewrite GlobalCnId_rt by exact W. reflexivity.
  - rewrite S103pdf_rt by exact W. reflexivity.
  - rewrite S1udf_rt by exact W. reflexivity.
  - rewrite DelayValue_rt by exact W. reflexivity.
  - rewrite BearerContext_rt; [reflexivity|exact W|]. apply decoder_list. eapply Forall_impl; [|apply BearerContext_good; apply W]. intros e (? & ? & ?). split; assumption.
  - rewrite ChargingId_rt by exact W. reflexivity.
  - rewrite ChargingCharacteristics_rt by exact W. reflexivity.
  - rewrite TraceInformation_rt by exact W. reflexivity.
  - rewrite BearerFlags_rt by exact W. reflexivity.
  - rewrite PdnType_rt by exact W. reflexivity.
  - rewrite Pti_rt by exact W. reflexivity.
  - rewrite MmContext_rt by exact W. reflexivity.
  - rewrite PdnConnections_rt; [reflexivity|exact W|]. apply decoder_list. eapply Forall_impl; [|apply PdnConnections_good; apply W]. intros e (? & ? & ?). split; assumption.
  - rewrite PduNumbers_rt by exact W. reflexivity.
  - rewrite Ptmsi_rt by exact W. reflexivity.
  - rewrite PtmsiSignature_rt by exact W. reflexivity.
  - rewrite HopCounter_rt by exact W. reflexivity.
  - rewrite UeTimeZone_rt by exact W. reflexivity.
  - rewrite TraceReference_rt by exact W. reflexivity.
  - rewrite CompleteRequestMessage_rt by exact W. reflexivity.
  - rewrite Guti_rt by exact W. reflexivity.
  - rewrite Fcontainer_rt by exact W. reflexivity.
  - rewrite Fcause_rt by exact W. reflexivity.
  - rewrite PlmnId_rt by exact W. reflexivity.
  - rewrite TargetIdentification_rt by exact W. reflexivity.
  - rewrite PacketFlowId_rt by exact W. reflexivity.
  - rewrite RabContext_rt by exact W. reflexivity.
  - rewrite SourceRncPdcpContextInfo_rt by exact W. reflexivity.
  - rewrite PortNumber_rt by exact W. reflexivity.
  - rewrite ApnRestriction_rt by exact W. reflexivity.
  - rewrite SelectionMode_rt by exact W. reflexivity.
  - rewrite SourceIdentification_rt by exact W. reflexivity.
  - rewrite ChangeReportingAction_rt by exact W. reflexivity.
  - rewrite Fqcsid_rt by exact W. reflexivity.
  - rewrite ChannelNeeded_rt by exact W. reflexivity.
  - rewrite EmlppPriority_rt by exact W. reflexivity.
  - rewrite NodeType_rt by exact W. reflexivity.
  - rewrite Fqdn_rt by exact W. reflexivity.
  - rewrite TransactionIdentifier_rt by exact W. reflexivity.
  - rewrite MbmsServiceArea_rt by exact W. reflexivity.
  - rewrite MbmsSessionDuration_rt by exact W. reflexivity.
  - rewrite MbmsSessionId_rt by exact W. reflexivity.
  - rewrite MbmsFlowId_rt by exact W. reflexivity.
  - rewrite MbmsIpMulticastDistribution_rt by exact W. reflexivity.
  - rewrite MbmsDistributionAck_rt by exact W. reflexivity.
  - rewrite RfspIndex_rt by exact W. reflexivity.
  - rewrite Uci_rt by exact W. reflexivity.
  - rewrite CSGInformationReportingAction_rt by exact W. reflexivity.
  - rewrite CsgId_rt by exact W. reflexivity.
  - rewrite CsgMembershipIndication_rt by exact W. reflexivity.
  - rewrite ServiceIndicator_rt by exact W. reflexivity.
  - rewrite DetachType_rt by exact W. reflexivity.
  - rewrite Ldn_rt by exact W. reflexivity.
  - rewrite NodeFeatures_rt by exact W. reflexivity.
  - rewrite MbmsTimeToDataTransfer_rt by exact W. reflexivity.
  - rewrite Throttling_rt by exact W. reflexivity.
  - rewrite Arp_rt by exact W. reflexivity.
  - rewrite EpcTimer_rt by exact W. reflexivity.
  - rewrite Spi_rt by exact W. reflexivity.
  - rewrite Tmgi_rt by exact W. reflexivity.
  - rewrite AdditionalMmContextForSrvcc_rt by exact W. reflexivity.
  - rewrite AdditionalFlagsSrvcc_rt by exact W. reflexivity.
  - rewrite MdtConfiguration_rt by exact W. reflexivity.
  - rewrite Apco_rt by exact W. reflexivity.
  - rewrite AbsoluteTimeMbmsDataTransfer_rt by exact W. reflexivity.
  - rewrite HenbInfoReporting_rt by exact W. reflexivity.
  - rewrite Ip4Cp_rt by exact W. reflexivity.
  - rewrite ChangeToReportFlags_rt by exact W. reflexivity.
  - rewrite ActionIndication_rt by exact W. reflexivity.
  - rewrite TwanId_rt by exact W. reflexivity.
  - rewrite UliTimestamp_rt by exact W. reflexivity.
  - rewrite MbmsFlags_rt by exact W. reflexivity.
  - rewrite RanNasCause_rt by exact W. reflexivity.
  - rewrite CnOperatorSelectionEntity_rt by exact W. reflexivity.
  - rewrite Twmi_rt by exact W. reflexivity.
  - rewrite NodeNumber_rt by exact W. reflexivity.
  - rewrite NodeIdentifier_rt by exact W. reflexivity.
  - rewrite PresenceReportingAreaAction_rt by exact W. reflexivity.
  - rewrite PresenceReportingAreaInformation_rt by exact W. reflexivity.
  - rewrite TwanIdTimeStamp_rt by exact W. reflexivity.
  - rewrite OverloadControlInfo_rt; [reflexivity|exact W|]. apply decoder_list. eapply Forall_impl; [|apply OverloadControlInfo_good; apply W]. intros e (? & ? & ?). split; assumption.
  - rewrite LoadControl_rt; [reflexivity|exact W|]. apply decoder_list. eapply Forall_impl; [|apply LoadControl_good; apply W]. intros e (? & ? & ?). split; assumption.
  - rewrite Metric_rt by exact W. reflexivity.
  - rewrite Sqn_rt by exact W. reflexivity.
  - rewrite ApnRelativeCapacity_rt by exact W. reflexivity.
  - rewrite WlanOffloadIndication_rt by exact W. reflexivity.
  - rewrite PagingServiceInfo_rt by exact W. reflexivity.
  - rewrite IntegerNumber_rt by exact W. reflexivity.
  - rewrite MilliSecondTimeStamp_rt by exact W. reflexivity.
  - rewrite MonitoringEventInformation_rt by exact W. reflexivity.
  - rewrite EcgiList_rt by exact W. reflexivity.
  - rewrite RemoteUeContext_rt; [reflexivity|exact W|]. apply decoder_list. eapply Forall_impl; [|apply RemoteUeContext_good; apply W]. intros e (? & ? & ?). split; assumption.
  - rewrite RemoteUserId_rt by exact W. reflexivity.
  - rewrite RemoteUeIpInformation_rt by exact W. reflexivity.
  - rewrite CIoTOptimizationSupportIndication_rt by exact W. reflexivity.
  - rewrite ScefPdnConnections_rt; [reflexivity|exact W|]. apply decoder_list. eapply Forall_impl; [|apply ScefPdnConnections_good; apply W]. intros e (? & ? & ?). split; assumption.
  - rewrite HeaderCompressionConfiguration_rt by exact W. reflexivity.
  - rewrite Epco_rt by exact W. reflexivity.
  - rewrite ServingPlmnRateControl_rt by exact W. reflexivity.
  - rewrite Counter_rt by exact W. reflexivity.
  - rewrite MappedUeUsageType_rt by exact W. reflexivity.
  - rewrite SecondaryRatUsageDataReport_rt by exact W. reflexivity.
  - rewrite UpFunctionSelectionIndicationFlags_rt by exact W. reflexivity.
  - rewrite MaxPacketLossRate_rt by exact W. reflexivity.
  - rewrite ApnRateControlStatus_rt by exact W. reflexivity.
  - rewrite ExtendedTraceInformation_rt by exact W. reflexivity.
  - rewrite MonitoringEventExtensionInfo_rt by exact W. reflexivity.
  - rewrite AdditionalRrmPolicyIndex_rt by exact W. reflexivity.
  - rewrite V2xInformation_rt; [reflexivity|exact W|]. apply decoder_list. eapply Forall_impl; [|apply V2xInformation_good; apply W]. intros e (? & ? & ?). split; assumption.
  - rewrite PC5QosParameters_rt; [reflexivity|exact W|]. apply decoder_list. eapply Forall_impl; [|apply PC5QosParameters_good; apply W]. intros e (? & ? & ?). split; assumption.
  - rewrite ServicesAuthorized_rt by exact W. reflexivity.
  - rewrite BitRate_rt by exact W. reflexivity.
  - rewrite PC5QosFlow_rt by exact W. reflexivity.
  - rewrite SgiPtpTunnelAddress_rt by exact W. reflexivity.
  - rewrite PgwChangeInfo_rt; [reflexivity|exact W|]. apply decoder_list. eapply Forall_impl; [|apply PgwChangeInfo_good; apply W]. intros e (? & ? & ?). split; assumption.
  - rewrite PgwFqdn_rt by exact W. reflexivity.
  - rewrite GroupId_rt by exact W. reflexivity.
  - rewrite PSCellId_rt by exact W. reflexivity.
  - rewrite UpSecurityPolicy_rt by exact W. reflexivity.
  - rewrite AlternativeImsi_rt by exact W. reflexivity.
  - rewrite SpecialIEWithTypeExt_rt by exact W. reflexivity.
  - rewrite PrivateExtension_rt by exact W. reflexivity.
  - exfalso. apply (U x). reflexivity.
Qed.

(* an IE that is not grouped does not use the list decoder; a grouped one uses it on its value *)
Lemma decode_one_plain dec dec' m b : ~ In (nth 0 b 0) grouped_codes -> decode_one dec m b = decode_one dec' m b.
Proof.
  intros H. destruct b as [|t b']; [reflexivity|]. cbn [nth grouped_codes In] in H. unfold decode_one. rewrite at_0, !bindOk.
  destruct (t =? 1); [reflexivity|].
  destruct (t =? 2); [reflexivity|].
  destruct (t =? 3); [reflexivity|].
  destruct (t =? 51); [reflexivity|].
  destruct (t =? 56); [reflexivity|].
  destruct (t =? 71); [reflexivity|].
  destruct (t =? 72); [reflexivity|].
  destruct (t =? 73); [reflexivity|].
  destruct (t =? 74); [reflexivity|].
  destruct (t =? 75); [reflexivity|].
  destruct (t =? 76); [reflexivity|].
  destruct (t =? 77); [reflexivity|].
  destruct (t =? 78); [reflexivity|].
  destruct (t =? 79); [reflexivity|].
  destruct (t =? 80); [reflexivity|].
  destruct (t =? 81); [reflexivity|].
  destruct (t =? 82); [reflexivity|].
  destruct (t =? 83); [reflexivity|].
  destruct (t =? 84); [reflexivity|].
  destruct (t =? 85); [reflexivity|].
  destruct (t =? 86); [reflexivity|].
  destruct (t =? 87); [reflexivity|].
  destruct (t =? 88); [reflexivity|].
  destruct (t =? 89); [reflexivity|].
  destruct (t =? 90); [reflexivity|].
  destruct (t =? 91); [reflexivity|].
  destruct (t =? 92); [reflexivity|].
  destruct (N.eqb_spec t 93); [subst t; tauto|].
  destruct (t =? 94); [reflexivity|].
  destruct (t =? 95); [reflexivity|].
  destruct (t =? 96); [reflexivity|].
  destruct (t =? 97); [reflexivity|].
  destruct (t =? 99); [reflexivity|].
  destruct (t =? 100); [reflexivity|].
  destruct ((103 <=? t) && (t <=? 108)); [reflexivity|].
  destruct (N.eqb_spec t 109); [subst t; tauto|].
  destruct (t =? 110); [reflexivity|].
  destruct (t =? 111); [reflexivity|].
  destruct (t =? 112); [reflexivity|].
  destruct (t =? 113); [reflexivity|].
  destruct (t =? 114); [reflexivity|].
  destruct (t =? 115); [reflexivity|].
  destruct (t =? 116); [reflexivity|].
  destruct (t =? 117); [reflexivity|].
  destruct (t =? 118); [reflexivity|].
  destruct (t =? 119); [reflexivity|].
  destruct (t =? 120); [reflexivity|].
  destruct (t =? 121); [reflexivity|].
  destruct (t =? 123); [reflexivity|].
  destruct (t =? 124); [reflexivity|].
  destruct (t =? 125); [reflexivity|].
  destruct (t =? 126); [reflexivity|].
  destruct (t =? 127); [reflexivity|].
  destruct (t =? 128); [reflexivity|].
  destruct (t =? 129); [reflexivity|].
  destruct (t =? 131); [reflexivity|].
  destruct (t =? 132); [reflexivity|].
  destruct (t =? 133); [reflexivity|].
  destruct (t =? 134); [reflexivity|].
  destruct (t =? 135); [reflexivity|].
  destruct (t =? 136); [reflexivity|].
  destruct (t =? 137); [reflexivity|].
  destruct (t =? 138); [reflexivity|].
  destruct (t =? 139); [reflexivity|].
  destruct (t =? 140); [reflexivity|].
  destruct (t =? 141); [reflexivity|].
  destruct (t =? 142); [reflexivity|].
  destruct (t =? 143); [reflexivity|].
  destruct (t =? 144); [reflexivity|].
  destruct (t =? 145); [reflexivity|].
  destruct (t =? 146); [reflexivity|].
  destruct (t =? 147); [reflexivity|].
  destruct (t =? 148); [reflexivity|].
  destruct (t =? 149); [reflexivity|].
  destruct (t =? 150); [reflexivity|].
  destruct (t =? 151); [reflexivity|].
  destruct (t =? 152); [reflexivity|].
  destruct (t =? 153); [reflexivity|].
  destruct (t =? 154); [reflexivity|].
  destruct (t =? 155); [reflexivity|].
  destruct (t =? 156); [reflexivity|].
  destruct (t =? 157); [reflexivity|].
  destruct (t =? 158); [reflexivity|].
  destruct (t =? 159); [reflexivity|].
  destruct (t =? 160); [reflexivity|].
  destruct (t =? 162); [reflexivity|].
  destruct (t =? 163); [reflexivity|].
  destruct (t =? 164); [reflexivity|].
  destruct (t =? 165); [reflexivity|].
  destruct (t =? 166); [reflexivity|].
  destruct (t =? 167); [reflexivity|].
  destruct (t =? 168); [reflexivity|].
  destruct (t =? 169); [reflexivity|].
  destruct (t =? 170); [reflexivity|].
  destruct (t =? 171); [reflexivity|].
  destruct (t =? 172); [reflexivity|].
  destruct (t =? 173); [reflexivity|].
  destruct (t =? 174); [reflexivity|].
  destruct (t =? 175); [reflexivity|].
  destruct (t =? 176); [reflexivity|].
  destruct (t =? 177); [reflexivity|].
  destruct (t =? 178); [reflexivity|].
  destruct (t =? 179); [reflexivity|].
  destruct (N.eqb_spec t 180); [subst t; tauto|].
  destruct (N.eqb_spec t 181); [subst t; tauto|].
  destruct (t =? 182); [reflexivity|].
  destruct (t =? 183); [reflexivity|].
  destruct (t =? 184); [reflexivity|].
  destruct (t =? 185); [reflexivity|].
  destruct (t =? 186); [reflexivity|].
  destruct (t =? 187); [reflexivity|].
  destruct (t =? 188); [reflexivity|].
  destruct (t =? 189); [reflexivity|].
  destruct (t =? 190); [reflexivity|].
  destruct (N.eqb_spec t 191); [subst t; tauto|].
  destruct (t =? 192); [reflexivity|].
  destruct (t =? 193); [reflexivity|].
  destruct (t =? 194); [reflexivity|].
  destruct (N.eqb_spec t 195); [subst t; tauto|].
  destruct (t =? 196); [reflexivity|].
  destruct (t =? 197); [reflexivity|].
  destruct (t =? 198); [reflexivity|].
  destruct (t =? 199); [reflexivity|].
  destruct (t =? 200); [reflexivity|].
  destruct (t =? 201); [reflexivity|].
  destruct (t =? 202); [reflexivity|].
  destruct (t =? 203); [reflexivity|].
  destruct (t =? 204); [reflexivity|].
  destruct (t =? 205); [reflexivity|].
  destruct (t =? 206); [reflexivity|].
  destruct (t =? 207); [reflexivity|].
  destruct (N.eqb_spec t 208); [subst t; tauto|].
  destruct (N.eqb_spec t 209); [subst t; tauto|].
  destruct (t =? 210); [reflexivity|].
  destruct (t =? 211); [reflexivity|].
  destruct (t =? 212); [reflexivity|].
  destruct (t =? 213); [reflexivity|].
  destruct (N.eqb_spec t 214); [subst t; tauto|].
  destruct (t =? 215); [reflexivity|].
  destruct (t =? 216); [reflexivity|].
  destruct (t =? 217); [reflexivity|].
  destruct (t =? 218); [reflexivity|].
  destruct (t =? 219); [reflexivity|].
  destruct (t =? 254); [reflexivity|].
  destruct (t =? 255); [reflexivity|].
  reflexivity.
Qed.
Lemma decode_one_value dec dec' m b : declared b <= 65531 -> dec (value_of b) = dec' (value_of b) -> decode_one dec m b = decode_one dec' m b.
Proof.
  intros Hd H. assert (G : GroupedIe_unmarshal dec m b = GroupedIe_unmarshal dec' m b).
  { unfold GroupedIe_unmarshal, MIN_IE_SIZE. destruct (Nat.leb_spec 4 (length b)); [|reflexivity]. apply bind_ext. intros t _. rewrite !hdr4_eq by assumption. unfold checked, check_tliv_ie_buffer.
    destruct (declared b =? 0); [reflexivity|]. rewrite add16_small by lia. rewrite !bindOk. destruct (Nat.leb_spec (N.to_nat (declared b + 4)) (length b)); [|reflexivity].
    rewrite end16_ok by lia. rewrite !bindOk. replace (N.to_nat (declared b + 4)) with (4 + N.to_nat (declared b))%nat by lia. rewrite slice_value by lia. rewrite !bindOk, H. reflexivity. }
  unfold decode_one. apply bind_ext. intros t _.
  destruct (t =? 1); [reflexivity|].
  destruct (t =? 2); [reflexivity|].
  destruct (t =? 3); [reflexivity|].
  destruct (t =? 51); [reflexivity|].
  destruct (t =? 56); [reflexivity|].
  destruct (t =? 71); [reflexivity|].
  destruct (t =? 72); [reflexivity|].
  destruct (t =? 73); [reflexivity|].
  destruct (t =? 74); [reflexivity|].
  destruct (t =? 75); [reflexivity|].
  destruct (t =? 76); [reflexivity|].
  destruct (t =? 77); [reflexivity|].
  destruct (t =? 78); [reflexivity|].
  destruct (t =? 79); [reflexivity|].
  destruct (t =? 80); [reflexivity|].
  destruct (t =? 81); [reflexivity|].
  destruct (t =? 82); [reflexivity|].
  destruct (t =? 83); [reflexivity|].
  destruct (t =? 84); [reflexivity|].
  destruct (t =? 85); [reflexivity|].
  destruct (t =? 86); [reflexivity|].
  destruct (t =? 87); [reflexivity|].
  destruct (t =? 88); [reflexivity|].
  destruct (t =? 89); [reflexivity|].
  destruct (t =? 90); [reflexivity|].
  destruct (t =? 91); [reflexivity|].
  destruct (t =? 92); [reflexivity|].
  destruct (t =? 93); [unfold BearerContext_unmarshal; rewrite G; reflexivity|].
  destruct (t =? 94); [reflexivity|].
  destruct (t =? 95); [reflexivity|].
  destruct (t =? 96); [reflexivity|].
  destruct (t =? 97); [reflexivity|].
  destruct (t =? 99); [reflexivity|].
  destruct (t =? 100); [reflexivity|].
  destruct ((103 <=? t) && (t <=? 108)); [reflexivity|].
  destruct (t =? 109); [unfold PdnConnections_unmarshal; rewrite G; reflexivity|].
  destruct (t =? 110); [reflexivity|].
  destruct (t =? 111); [reflexivity|].
  destruct (t =? 112); [reflexivity|].
  destruct (t =? 113); [reflexivity|].
  destruct (t =? 114); [reflexivity|].
  destruct (t =? 115); [reflexivity|].
  destruct (t =? 116); [reflexivity|].
  destruct (t =? 117); [reflexivity|].
  destruct (t =? 118); [reflexivity|].
  destruct (t =? 119); [reflexivity|].
  destruct (t =? 120); [reflexivity|].
  destruct (t =? 121); [reflexivity|].
  destruct (t =? 123); [reflexivity|].
  destruct (t =? 124); [reflexivity|].
  destruct (t =? 125); [reflexivity|].
  destruct (t =? 126); [reflexivity|].
  destruct (t =? 127); [reflexivity|].
  destruct (t =? 128); [reflexivity|].
  destruct (t =? 129); [reflexivity|].
  destruct (t =? 131); [reflexivity|].
  destruct (t =? 132); [reflexivity|].
  destruct (t =? 133); [reflexivity|].
  destruct (t =? 134); [reflexivity|].
  destruct (t =? 135); [reflexivity|].
  destruct (t =? 136); [reflexivity|].
  destruct (t =? 137); [reflexivity|].
  destruct (t =? 138); [reflexivity|].
  destruct (t =? 139); [reflexivity|].
  destruct (t =? 140); [reflexivity|].
  destruct (t =? 141); [reflexivity|].
  destruct (t =? 142); [reflexivity|].
  destruct (t =? 143); [reflexivity|].
  destruct (t =? 144); [reflexivity|].
  destruct (t =? 145); [reflexivity|].
  destruct (t =? 146); [reflexivity|].
  destruct (t =? 147); [reflexivity|].
  destruct (t =? 148); [reflexivity|].
  destruct (t =? 149); [reflexivity|].
  destruct (t =? 150); [reflexivity|].
  destruct (t =? 151); [reflexivity|].
  destruct (t =? 152); [reflexivity|].
  destruct (t =? 153); [reflexivity|].
  destruct (t =? 154); [reflexivity|].
  destruct (t =? 155); [reflexivity|].
  destruct (t =? 156); [reflexivity|].
  destruct (t =? 157); [reflexivity|].
  destruct (t =? 158); [reflexivity|].
  destruct (t =? 159); [reflexivity|].
  destruct (t =? 160); [reflexivity|].
  destruct (t =? 162); [reflexivity|].
  destruct (t =? 163); [reflexivity|].
  destruct (t =? 164); [reflexivity|].
  destruct (t =? 165); [reflexivity|].
  destruct (t =? 166); [reflexivity|].
  destruct (t =? 167); [reflexivity|].
  destruct (t =? 168); [reflexivity|].
  destruct (t =? 169); [reflexivity|].
  destruct (t =? 170); [reflexivity|].
  destruct (t =? 171); [reflexivity|].
  destruct (t =? 172); [reflexivity|].
  destruct (t =? 173); [reflexivity|].
  destruct (t =? 174); [reflexivity|].
  destruct (t =? 175); [reflexivity|].
  destruct (t =? 176); [reflexivity|].
  destruct (t =? 177); [reflexivity|].
  destruct (t =? 178); [reflexivity|].
  destruct (t =? 179); [reflexivity|].
  destruct (t =? 180); [unfold OverloadControlInfo_unmarshal; rewrite G; reflexivity|].
  destruct (t =? 181); [unfold LoadControl_unmarshal; rewrite G; reflexivity|].
  destruct (t =? 182); [reflexivity|].
  destruct (t =? 183); [reflexivity|].
  destruct (t =? 184); [reflexivity|].
  destruct (t =? 185); [reflexivity|].
  destruct (t =? 186); [reflexivity|].
  destruct (t =? 187); [reflexivity|].
  destruct (t =? 188); [reflexivity|].
  destruct (t =? 189); [reflexivity|].
  destruct (t =? 190); [reflexivity|].
  destruct (t =? 191); [unfold RemoteUeContext_unmarshal; rewrite G; reflexivity|].
  destruct (t =? 192); [reflexivity|].
  destruct (t =? 193); [reflexivity|].
  destruct (t =? 194); [reflexivity|].
  destruct (t =? 195); [unfold ScefPdnConnections_unmarshal; rewrite G; reflexivity|].
  destruct (t =? 196); [reflexivity|].
  destruct (t =? 197); [reflexivity|].
  destruct (t =? 198); [reflexivity|].
  destruct (t =? 199); [reflexivity|].
  destruct (t =? 200); [reflexivity|].
  destruct (t =? 201); [reflexivity|].
  destruct (t =? 202); [reflexivity|].
  destruct (t =? 203); [reflexivity|].
  destruct (t =? 204); [reflexivity|].
  destruct (t =? 205); [reflexivity|].
  destruct (t =? 206); [reflexivity|].
  destruct (t =? 207); [reflexivity|].
  destruct (t =? 208); [unfold V2xInformation_unmarshal; rewrite G; reflexivity|].
  destruct (t =? 209); [unfold PC5QosParameters_unmarshal; rewrite G; reflexivity|].
  destruct (t =? 210); [reflexivity|].
  destruct (t =? 211); [reflexivity|].
  destruct (t =? 212); [reflexivity|].
  destruct (t =? 213); [reflexivity|].
  destruct (t =? 214); [unfold PgwChangeInfo_unmarshal; rewrite G; reflexivity|].
  destruct (t =? 215); [reflexivity|].
  destruct (t =? 216); [reflexivity|].
  destruct (t =? 217); [reflexivity|].
  destruct (t =? 218); [reflexivity|].
  destruct (t =? 219); [reflexivity|].
  destruct (t =? 254); [reflexivity|].
  destruct (t =? 255); [reflexivity|].
  reflexivity.
Qed.
Lemma halts_plain m b : ~ In (nth 0 b 0) grouped_codes -> halts (decode_one (decoder m) m b).
Proof. intros H. rewrite (decode_one_plain _ (fun _ => Ok []) m b H). apply halts_decode_one. intros. apply halts_ok. Qed.
Lemma halts_grouped_value m b : declared b <= 65531 -> (inner b (value_of b) -> halts (decoder m (value_of b))) -> halts (decode_one (decoder m) m b).
Proof.
  intros Hd H. destruct (list_eq_dec N.eq_dec (value_of b) (value_of b)) as [_|C]; [|contradiction C; reflexivity].
  rewrite (decode_one_value _ (fun s => if list_eq_dec N.eq_dec s (value_of b) then decoder m s else Ok []) m b Hd).
  - apply halts_decode_one. intros s Hs. destruct (list_eq_dec N.eq_dec s (value_of b)); [subst; apply H, Hs|apply halts_ok].
  - destruct (list_eq_dec N.eq_dec (value_of b) (value_of b)); [reflexivity|contradiction].
Qed.
Lemma decoder_halts m b : (m = Debug \/ forall s, visits m b s -> declared s <= 65531) -> halts (decoder m b).
Proof.
  remember (length b) as k eqn:Hk. revert b Hk. induction k as [k IH] using lt_wf_ind. intros b -> H. destruct H as [->|H]; [apply decoder_halts_debug|]. rewrite decoder_eq.
  assert (L : forall fuel c, (length c <= fuel)%nat -> (length c <= length b)%nat -> (forall s, visits m c s -> declared s <= 65531) -> halts (ie_loop (decode_one (decoder m) m) m fuel c)).
  { induction fuel as [|f IHf]; intros [|x c] F Hc T; try apply halts_ok; [cbn in F; lia|]. cbn [ie_loop].
    assert (Tx : declared (x :: c) <= 65531) by (apply T; constructor; discriminate).
    assert (R : halts (decode_one (decoder m) m (x :: c))).
    { destruct (in_dec N.eq_dec (nth 0 (x :: c) 0) grouped_codes) as [Hi|Hi].
      - assert (V : inner (x :: c) (value_of (x :: c)) \/ (length (x :: c) < 4 + N.to_nat (declared (x :: c)))%nat).
        { destruct (Nat.leb_spec (4 + N.to_nat (declared (x :: c))) (length (x :: c))); [left|right; lia]. unfold inner, value_of, nlen. rewrite firstn_length, skipn_length. lia. }
        apply halts_grouped_value; [exact Tx|]. intros [V1 V2]. eapply IH; [|reflexivity|].
        + lia.
        + right. intros s Hs. apply T. apply visit_inside; assumption.
      - apply halts_plain. exact Hi. }
    destruct (decode_one (decoder m) m (x :: c)) as [e| | |] eqn:E; try contradiction; [|apply halts_err|apply halts_panic]. rewrite bindOk.
    assert (D := decode_one_post (decoder m) m (x :: c) e E). destruct D as [_ D]. assert (Le : ie_lenfield e <= 65531) by (rewrite D; apply Tx).
    pose proof (halts_ie_len m e) as RL. destruct (ie_len m e) as [n| | |] eqn:EL; try contradiction; [|apply halts_err|apply halts_panic]. rewrite bindOk.
    pose proof (ie_len_pos m e n (or_intror Le) EL) as Pn. cbn [length] in *.
    assert (S1 : (length (skipn n (x :: c)) <= length c)%nat) by (rewrite skipn_length; cbn [length]; lia).
    apply halts_bind; [|intros; apply halts_ok]. apply IHf; [lia|lia|]. intros s Hs. apply T. eapply visit_next; eassumption. }
  apply L; [lia|lia|exact H].
Qed.
