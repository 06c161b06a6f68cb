(* GENERATED by tools/ragel2coq.py from /repo/rfc5424/builder.go lines 77-9261. Do not edit. *)
(* One entry per Go label, in source order; the comment gives the line of the label. *)
From Coq Require Import List NArith.
From Verif Require Import GotoLang BuilderBaseDef.
Import ListNotations. Local Open Scope N_scope.

(* /repo/rfc5424/builder.go *)
Definition progBuilder_0 : list (label * code act cnd) := [
  (* builder.go:77 entry *) (LEntry, (KIf CPe (KGoto LEof KNil) KNil (KBlk (KIf (CCs [52]) (KGoto (LCase 52) KNil) (KIf (CCs [53]) (KGoto (LCase 53) KNil) (KIf (CCs [1]) (KGoto (LCase 1) KNil) (KIf (CCs [0]) (KGoto (LCase 0) KNil) (KIf (CCs [2]) (KGoto (LCase 2) KNil) (KIf (CCs [3]) (KGoto (LCase 3) KNil) (KIf (CCs [4]) (KGoto (LCase 4) KNil) (KIf (CCs [5]) (KGoto (LCase 5) KNil) (KIf (CCs [6]) (KGoto (LCase 6) KNil) (KIf (CCs [7]) (KGoto (LCase 7) KNil) (KIf (CCs [8]) (KGoto (LCase 8) KNil) (KIf (CCs [9]) (KGoto (LCase 9) KNil) (KIf (CCs [10]) (KGoto (LCase 10) KNil) (KIf (CCs [11]) (KGoto (LCase 11) KNil) (KIf (CCs [12]) (KGoto (LCase 12) KNil) (KIf (CCs [13]) (KGoto (LCase 13) KNil) (KIf (CCs [14]) (KGoto (LCase 14) KNil) (KIf (CCs [15]) (KGoto (LCase 15) KNil) (KIf (CCs [16]) (KGoto (LCase 16) KNil) (KIf (CCs [17]) (KGoto (LCase 17) KNil) (KIf (CCs [18]) (KGoto (LCase 18) KNil) (KIf (CCs [19]) (KGoto (LCase 19) KNil) (KIf (CCs [20]) (KGoto (LCase 20) KNil) (KIf (CCs [21]) (KGoto (LCase 21) KNil) (KIf (CCs [22]) (KGoto (LCase 22) KNil) (KIf (CCs [23]) (KGoto (LCase 23) KNil) (KIf (CCs [24]) (KGoto (LCase 24) KNil) (KIf (CCs [25]) (KGoto (LCase 25) KNil) (KIf (CCs [54]) (KGoto (LCase 54) KNil) (KIf (CCs [26]) (KGoto (LCase 26) KNil) (KIf (CCs [27]) (KGoto (LCase 27) KNil) (KIf (CCs [28]) (KGoto (LCase 28) KNil) (KIf (CCs [29]) (KGoto (LCase 29) KNil) (KIf (CCs [30]) (KGoto (LCase 30) KNil) (KIf (CCs [31]) (KGoto (LCase 31) KNil) (KIf (CCs [32]) (KGoto (LCase 32) KNil) (KIf (CCs [33]) (KGoto (LCase 33) KNil) (KIf (CCs [34]) (KGoto (LCase 34) KNil) (KIf (CCs [35]) (KGoto (LCase 35) KNil) (KIf (CCs [36]) (KGoto (LCase 36) KNil) (KIf (CCs [37]) (KGoto (LCase 37) KNil) (KIf (CCs [38]) (KGoto (LCase 38) KNil) (KIf (CCs [55]) (KGoto (LCase 55) KNil) (KIf (CCs [56]) (KGoto (LCase 56) KNil) (KIf (CCs [57]) (KGoto (LCase 57) KNil) (KIf (CCs [58]) (KGoto (LCase 58) KNil) (KIf (CCs [59]) (KGoto (LCase 59) KNil) (KIf (CCs [60]) (KGoto (LCase 60) KNil) (KIf (CCs [61]) (KGoto (LCase 61) KNil) (KIf (CCs [62]) (KGoto (LCase 62) KNil) (KIf (CCs [63]) (KGoto (LCase 63) KNil) (KIf (CCs [64]) (KGoto (LCase 64) KNil) (KIf (CCs [65]) (KGoto (LCase 65) KNil) (KIf (CCs [66]) (KGoto (LCase 66) KNil) (KIf (CCs [67]) (KGoto (LCase 67) KNil) (KIf (CCs [68]) (KGoto (LCase 68) KNil) (KIf (CCs [69]) (KGoto (LCase 69) KNil) (KIf (CCs [70]) (KGoto (LCase 70) KNil) (KIf (CCs [71]) (KGoto (LCase 71) KNil) (KIf (CCs [72]) (KGoto (LCase 72) KNil) (KIf (CCs [73]) (KGoto (LCase 73) KNil) (KIf (CCs [74]) (KGoto (LCase 74) KNil) (KIf (CCs [75]) (KGoto (LCase 75) KNil) (KIf (CCs [76]) (KGoto (LCase 76) KNil) (KIf (CCs [77]) (KGoto (LCase 77) KNil) (KIf (CCs [78]) (KGoto (LCase 78) KNil) (KIf (CCs [79]) (KGoto (LCase 79) KNil) (KIf (CCs [80]) (KGoto (LCase 80) KNil) (KIf (CCs [81]) (KGoto (LCase 81) KNil) (KIf (CCs [82]) (KGoto (LCase 82) KNil) (KIf (CCs [83]) (KGoto (LCase 83) KNil) (KIf (CCs [84]) (KGoto (LCase 84) KNil) (KIf (CCs [85]) (KGoto (LCase 85) KNil) (KIf (CCs [86]) (KGoto (LCase 86) KNil) (KIf (CCs [87]) (KGoto (LCase 87) KNil) (KIf (CCs [88]) (KGoto (LCase 88) KNil) (KIf (CCs [89]) (KGoto (LCase 89) KNil) (KIf (CCs [90]) (KGoto (LCase 90) KNil) (KIf (CCs [91]) (KGoto (LCase 91) KNil) (KIf (CCs [92]) (KGoto (LCase 92) KNil) (KIf (CCs [93]) (KGoto (LCase 93) KNil) (KIf (CCs [94]) (KGoto (LCase 94) KNil) (KIf (CCs [95]) (KGoto (LCase 95) KNil) (KIf (CCs [96]) (KGoto (LCase 96) KNil) (KIf (CCs [97]) (KGoto (LCase 97) KNil) (KIf (CCs [98]) (KGoto (LCase 98) KNil) (KIf (CCs [99]) (KGoto (LCase 99) KNil) (KIf (CCs [100]) (KGoto (LCase 100) KNil) (KIf (CCs [101]) (KGoto (LCase 101) KNil) (KIf (CCs [102]) (KGoto (LCase 102) KNil) (KIf (CCs [103]) (KGoto (LCase 103) KNil) (KIf (CCs [104]) (KGoto (LCase 104) KNil) (KIf (CCs [105]) (KGoto (LCase 105) KNil) (KIf (CCs [106]) (KGoto (LCase 106) KNil) (KIf (CCs [107]) (KGoto (LCase 107) KNil) (KIf (CCs [108]) (KGoto (LCase 108) KNil) (KIf (CCs [109]) (KGoto (LCase 109) KNil) (KIf (CCs [110]) (KGoto (LCase 110) KNil) (KIf (CCs [111]) (KGoto (LCase 111) KNil) (KIf (CCs [112]) (KGoto (LCase 112) KNil) (KIf (CCs [113]) (KGoto (LCase 113) KNil) (KIf (CCs [114]) (KGoto (LCase 114) KNil) (KIf (CCs [115]) (KGoto (LCase 115) KNil) (KIf (CCs [116]) (KGoto (LCase 116) KNil) (KIf (CCs [117]) (KGoto (LCase 117) KNil) (KIf (CCs [118]) (KGoto (LCase 118) KNil) (KIf (CCs [119]) (KGoto (LCase 119) KNil) (KIf (CCs [120]) (KGoto (LCase 120) KNil) (KIf (CCs [121]) (KGoto (LCase 121) KNil) (KIf (CCs [122]) (KGoto (LCase 122) KNil) (KIf (CCs [123]) (KGoto (LCase 123) KNil) (KIf (CCs [124]) (KGoto (LCase 124) KNil) (KIf (CCs [125]) (KGoto (LCase 125) KNil) (KIf (CCs [126]) (KGoto (LCase 126) KNil) (KIf (CCs [127]) (KGoto (LCase 127) KNil) (KIf (CCs [128]) (KGoto (LCase 128) KNil) (KIf (CCs [129]) (KGoto (LCase 129) KNil) (KIf (CCs [130]) (KGoto (LCase 130) KNil) (KIf (CCs [131]) (KGoto (LCase 131) KNil) (KIf (CCs [132]) (KGoto (LCase 132) KNil) (KIf (CCs [133]) (KGoto (LCase 133) KNil) (KIf (CCs [134]) (KGoto (LCase 134) KNil) (KIf (CCs [135]) (KGoto (LCase 135) KNil) (KIf (CCs [136]) (KGoto (LCase 136) KNil) (KIf (CCs [137]) (KGoto (LCase 137) KNil) (KIf (CCs [138]) (KGoto (LCase 138) KNil) (KIf (CCs [139]) (KGoto (LCase 139) KNil) (KIf (CCs [140]) (KGoto (LCase 140) KNil) (KIf (CCs [141]) (KGoto (LCase 141) KNil) (KIf (CCs [142]) (KGoto (LCase 142) KNil) (KIf (CCs [143]) (KGoto (LCase 143) KNil) (KIf (CCs [144]) (KGoto (LCase 144) KNil) (KIf (CCs [145]) (KGoto (LCase 145) KNil) (KIf (CCs [146]) (KGoto (LCase 146) KNil) (KIf (CCs [147]) (KGoto (LCase 147) KNil) (KIf (CCs [148]) (KGoto (LCase 148) KNil) (KIf (CCs [149]) (KGoto (LCase 149) KNil) (KIf (CCs [150]) (KGoto (LCase 150) KNil) (KIf (CCs [151]) (KGoto (LCase 151) KNil) (KIf (CCs [152]) (KGoto (LCase 152) KNil) (KIf (CCs [153]) (KGoto (LCase 153) KNil) (KIf (CCs [154]) (KGoto (LCase 154) KNil) (KIf (CCs [155]) (KGoto (LCase 155) KNil) (KIf (CCs [156]) (KGoto (LCase 156) KNil) (KIf (CCs [157]) (KGoto (LCase 157) KNil) (KIf (CCs [158]) (KGoto (LCase 158) KNil) (KIf (CCs [159]) (KGoto (LCase 159) KNil) (KIf (CCs [160]) (KGoto (LCase 160) KNil) (KIf (CCs [161]) (KGoto (LCase 161) KNil) (KIf (CCs [162]) (KGoto (LCase 162) KNil) (KIf (CCs [163]) (KGoto (LCase 163) KNil) (KIf (CCs [164]) (KGoto (LCase 164) KNil) (KIf (CCs [165]) (KGoto (LCase 165) KNil) (KIf (CCs [166]) (KGoto (LCase 166) KNil) (KIf (CCs [167]) (KGoto (LCase 167) KNil) (KIf (CCs [168]) (KGoto (LCase 168) KNil) (KIf (CCs [169]) (KGoto (LCase 169) KNil) (KIf (CCs [170]) (KGoto (LCase 170) KNil) (KIf (CCs [171]) (KGoto (LCase 171) KNil) (KIf (CCs [172]) (KGoto (LCase 172) KNil) (KIf (CCs [173]) (KGoto (LCase 173) KNil) (KIf (CCs [174]) (KGoto (LCase 174) KNil) (KIf (CCs [175]) (KGoto (LCase 175) KNil) (KIf (CCs [176]) (KGoto (LCase 176) KNil) (KIf (CCs [177]) (KGoto (LCase 177) KNil) (KIf (CCs [178]) (KGoto (LCase 178) KNil) (KIf (CCs [179]) (KGoto (LCase 179) KNil) (KIf (CCs [180]) (KGoto (LCase 180) KNil) (KIf (CCs [181]) (KGoto (LCase 181) KNil) (KIf (CCs [182]) (KGoto (LCase 182) KNil) (KIf (CCs [183]) (KGoto (LCase 183) KNil) (KIf (CCs [184]) (KGoto (LCase 184) KNil) (KIf (CCs [185]) (KGoto (LCase 185) KNil) (KIf (CCs [186]) (KGoto (LCase 186) KNil) (KIf (CCs [187]) (KGoto (LCase 187) KNil) (KIf (CCs [188]) (KGoto (LCase 188) KNil) (KIf (CCs [189]) (KGoto (LCase 189) KNil) (KIf (CCs [190]) (KGoto (LCase 190) KNil) (KIf (CCs [191]) (KGoto (LCase 191) KNil) (KIf (CCs [192]) (KGoto (LCase 192) KNil) (KIf (CCs [193]) (KGoto (LCase 193) KNil) (KIf (CCs [194]) (KGoto (LCase 194) KNil) (KIf (CCs [195]) (KGoto (LCase 195) KNil) (KIf (CCs [196]) (KGoto (LCase 196) KNil) (KIf (CCs [197]) (KGoto (LCase 197) KNil) (KIf (CCs [198]) (KGoto (LCase 198) KNil) (KIf (CCs [199]) (KGoto (LCase 199) KNil) (KIf (CCs [200]) (KGoto (LCase 200) KNil) (KIf (CCs [201]) (KGoto (LCase 201) KNil) (KIf (CCs [202]) (KGoto (LCase 202) KNil) (KIf (CCs [203]) (KGoto (LCase 203) KNil) (KIf (CCs [204]) (KGoto (LCase 204) KNil) (KIf (CCs [205]) (KGoto (LCase 205) KNil) (KIf (CCs [206]) (KGoto (LCase 206) KNil) (KIf (CCs [207]) (KGoto (LCase 207) KNil) (KIf (CCs [208]) (KGoto (LCase 208) KNil) (KIf (CCs [209]) (KGoto (LCase 209) KNil) (KIf (CCs [210]) (KGoto (LCase 210) KNil) (KIf (CCs [211]) (KGoto (LCase 211) KNil) (KIf (CCs [212]) (KGoto (LCase 212) KNil) (KIf (CCs [213]) (KGoto (LCase 213) KNil) (KIf (CCs [214]) (KGoto (LCase 214) KNil) (KIf (CCs [215]) (KGoto (LCase 215) KNil) (KIf (CCs [216]) (KGoto (LCase 216) KNil) (KIf (CCs [217]) (KGoto (LCase 217) KNil) (KIf (CCs [218]) (KGoto (LCase 218) KNil) (KIf (CCs [219]) (KGoto (LCase 219) KNil) (KIf (CCs [220]) (KGoto (LCase 220) KNil) (KIf (CCs [221]) (KGoto (LCase 221) KNil) (KIf (CCs [222]) (KGoto (LCase 222) KNil) (KIf (CCs [223]) (KGoto (LCase 223) KNil) (KIf (CCs [224]) (KGoto (LCase 224) KNil) (KIf (CCs [225]) (KGoto (LCase 225) KNil) (KIf (CCs [226]) (KGoto (LCase 226) KNil) (KIf (CCs [227]) (KGoto (LCase 227) KNil) (KIf (CCs [228]) (KGoto (LCase 228) KNil) (KIf (CCs [229]) (KGoto (LCase 229) KNil) (KIf (CCs [230]) (KGoto (LCase 230) KNil) (KIf (CCs [231]) (KGoto (LCase 231) KNil) (KIf (CCs [232]) (KGoto (LCase 232) KNil) (KIf (CCs [233]) (KGoto (LCase 233) KNil) (KIf (CCs [234]) (KGoto (LCase 234) KNil) (KIf (CCs [235]) (KGoto (LCase 235) KNil) (KIf (CCs [236]) (KGoto (LCase 236) KNil) (KIf (CCs [237]) (KGoto (LCase 237) KNil) (KIf (CCs [238]) (KGoto (LCase 238) KNil) (KIf (CCs [239]) (KGoto (LCase 239) KNil) (KIf (CCs [240]) (KGoto (LCase 240) KNil) (KIf (CCs [241]) (KGoto (LCase 241) KNil) (KIf (CCs [242]) (KGoto (LCase 242) KNil) (KIf (CCs [243]) (KGoto (LCase 243) KNil) (KIf (CCs [244]) (KGoto (LCase 244) KNil) (KIf (CCs [245]) (KGoto (LCase 245) KNil) (KIf (CCs [246]) (KGoto (LCase 246) KNil) (KIf (CCs [247]) (KGoto (LCase 247) KNil) (KIf (CCs [248]) (KGoto (LCase 248) KNil) (KIf (CCs [249]) (KGoto (LCase 249) KNil) (KIf (CCs [250]) (KGoto (LCase 250) KNil) (KIf (CCs [251]) (KGoto (LCase 251) KNil) (KIf (CCs [252]) (KGoto (LCase 252) KNil) (KIf (CCs [253]) (KGoto (LCase 253) KNil) (KIf (CCs [254]) (KGoto (LCase 254) KNil) (KIf (CCs [255]) (KGoto (LCase 255) KNil) (KIf (CCs [256]) (KGoto (LCase 256) KNil) (KIf (CCs [257]) (KGoto (LCase 257) KNil) (KIf (CCs [258]) (KGoto (LCase 258) KNil) (KIf (CCs [259]) (KGoto (LCase 259) KNil) (KIf (CCs [260]) (KGoto (LCase 260) KNil) (KIf (CCs [261]) (KGoto (LCase 261) KNil) (KIf (CCs [262]) (KGoto (LCase 262) KNil) (KIf (CCs [263]) (KGoto (LCase 263) KNil) (KIf (CCs [264]) (KGoto (LCase 264) KNil) (KIf (CCs [265]) (KGoto (LCase 265) KNil) (KIf (CCs [266]) (KGoto (LCase 266) KNil) (KIf (CCs [267]) (KGoto (LCase 267) KNil) (KIf (CCs [268]) (KGoto (LCase 268) KNil) (KIf (CCs [269]) (KGoto (LCase 269) KNil) (KIf (CCs [270]) (KGoto (LCase 270) KNil) (KIf (CCs [271]) (KGoto (LCase 271) KNil) (KIf (CCs [272]) (KGoto (LCase 272) KNil) (KIf (CCs [273]) (KGoto (LCase 273) KNil) (KIf (CCs [274]) (KGoto (LCase 274) KNil) (KIf (CCs [275]) (KGoto (LCase 275) KNil) (KIf (CCs [276]) (KGoto (LCase 276) KNil) (KIf (CCs [277]) (KGoto (LCase 277) KNil) (KIf (CCs [278]) (KGoto (LCase 278) KNil) (KIf (CCs [279]) (KGoto (LCase 279) KNil) (KIf (CCs [280]) (KGoto (LCase 280) KNil) (KIf (CCs [281]) (KGoto (LCase 281) KNil) (KIf (CCs [282]) (KGoto (LCase 282) KNil) (KIf (CCs [283]) (KGoto (LCase 283) KNil) (KIf (CCs [284]) (KGoto (LCase 284) KNil) (KIf (CCs [285]) (KGoto (LCase 285) KNil) (KIf (CCs [286]) (KGoto (LCase 286) KNil) (KIf (CCs [287]) (KGoto (LCase 287) KNil) (KIf (CCs [288]) (KGoto (LCase 288) KNil) (KIf (CCs [289]) (KGoto (LCase 289) KNil) (KIf (CCs [290]) (KGoto (LCase 290) KNil) (KIf (CCs [291]) (KGoto (LCase 291) KNil) (KIf (CCs [292]) (KGoto (LCase 292) KNil) (KIf (CCs [293]) (KGoto (LCase 293) KNil) (KIf (CCs [294]) (KGoto (LCase 294) KNil) (KIf (CCs [295]) (KGoto (LCase 295) KNil) (KIf (CCs [296]) (KGoto (LCase 296) KNil) (KIf (CCs [297]) (KGoto (LCase 297) KNil) (KIf (CCs [298]) (KGoto (LCase 298) KNil) (KIf (CCs [299]) (KGoto (LCase 299) KNil) (KIf (CCs [300]) (KGoto (LCase 300) KNil) (KIf (CCs [301]) (KGoto (LCase 301) KNil) (KIf (CCs [302]) (KGoto (LCase 302) KNil) (KIf (CCs [303]) (KGoto (LCase 303) KNil) (KIf (CCs [304]) (KGoto (LCase 304) KNil) (KIf (CCs [305]) (KGoto (LCase 305) KNil) (KIf (CCs [306]) (KGoto (LCase 306) KNil) (KIf (CCs [307]) (KGoto (LCase 307) KNil) (KIf (CCs [308]) (KGoto (LCase 308) KNil) (KIf (CCs [309]) (KGoto (LCase 309) KNil) (KIf (CCs [39]) (KGoto (LCase 39) KNil) (KIf (CCs [310]) (KGoto (LCase 310) KNil) (KIf (CCs [311]) (KGoto (LCase 311) KNil) (KIf (CCs [312]) (KGoto (LCase 312) KNil) (KIf (CCs [313]) (KGoto (LCase 313) KNil) (KIf (CCs [314]) (KGoto (LCase 314) KNil) (KIf (CCs [315]) (KGoto (LCase 315) KNil) (KIf (CCs [316]) (KGoto (LCase 316) KNil) (KIf (CCs [317]) (KGoto (LCase 317) KNil) (KIf (CCs [318]) (KGoto (LCase 318) KNil) (KIf (CCs [319]) (KGoto (LCase 319) KNil) (KIf (CCs [320]) (KGoto (LCase 320) KNil) (KIf (CCs [321]) (KGoto (LCase 321) KNil) (KIf (CCs [322]) (KGoto (LCase 322) KNil) (KIf (CCs [323]) (KGoto (LCase 323) KNil) (KIf (CCs [324]) (KGoto (LCase 324) KNil) (KIf (CCs [325]) (KGoto (LCase 325) KNil) (KIf (CCs [326]) (KGoto (LCase 326) KNil) (KIf (CCs [327]) (KGoto (LCase 327) KNil) (KIf (CCs [328]) (KGoto (LCase 328) KNil) (KIf (CCs [329]) (KGoto (LCase 329) KNil) (KIf (CCs [330]) (KGoto (LCase 330) KNil) (KIf (CCs [331]) (KGoto (LCase 331) KNil) (KIf (CCs [332]) (KGoto (LCase 332) KNil) (KIf (CCs [333]) (KGoto (LCase 333) KNil) (KIf (CCs [334]) (KGoto (LCase 334) KNil) (KIf (CCs [335]) (KGoto (LCase 335) KNil) (KIf (CCs [336]) (KGoto (LCase 336) KNil) (KIf (CCs [337]) (KGoto (LCase 337) KNil) (KIf (CCs [338]) (KGoto (LCase 338) KNil) (KIf (CCs [339]) (KGoto (LCase 339) KNil) (KIf (CCs [340]) (KGoto (LCase 340) KNil) (KIf (CCs [341]) (KGoto (LCase 341) KNil) (KIf (CCs [342]) (KGoto (LCase 342) KNil) (KIf (CCs [343]) (KGoto (LCase 343) KNil) (KIf (CCs [344]) (KGoto (LCase 344) KNil) (KIf (CCs [345]) (KGoto (LCase 345) KNil) (KIf (CCs [346]) (KGoto (LCase 346) KNil) (KIf (CCs [347]) (KGoto (LCase 347) KNil) (KIf (CCs [348]) (KGoto (LCase 348) KNil) (KIf (CCs [349]) (KGoto (LCase 349) KNil) (KIf (CCs [350]) (KGoto (LCase 350) KNil) (KIf (CCs [351]) (KGoto (LCase 351) KNil) (KIf (CCs [352]) (KGoto (LCase 352) KNil) (KIf (CCs [353]) (KGoto (LCase 353) KNil) (KIf (CCs [354]) (KGoto (LCase 354) KNil) (KIf (CCs [355]) (KGoto (LCase 355) KNil) (KIf (CCs [356]) (KGoto (LCase 356) KNil) (KIf (CCs [357]) (KGoto (LCase 357) KNil) (KIf (CCs [40]) (KGoto (LCase 40) KNil) (KIf (CCs [358]) (KGoto (LCase 358) KNil) (KIf (CCs [359]) (KGoto (LCase 359) KNil) (KIf (CCs [360]) (KGoto (LCase 360) KNil) (KIf (CCs [361]) (KGoto (LCase 361) KNil) (KIf (CCs [362]) (KGoto (LCase 362) KNil) (KIf (CCs [363]) (KGoto (LCase 363) KNil) (KIf (CCs [364]) (KGoto (LCase 364) KNil) (KIf (CCs [365]) (KGoto (LCase 365) KNil) (KIf (CCs [366]) (KGoto (LCase 366) KNil) (KIf (CCs [367]) (KGoto (LCase 367) KNil) (KIf (CCs [368]) (KGoto (LCase 368) KNil) (KIf (CCs [369]) (KGoto (LCase 369) KNil) (KIf (CCs [370]) (KGoto (LCase 370) KNil) (KIf (CCs [371]) (KGoto (LCase 371) KNil) (KIf (CCs [372]) (KGoto (LCase 372) KNil) (KIf (CCs [373]) (KGoto (LCase 373) KNil) (KIf (CCs [374]) (KGoto (LCase 374) KNil) (KIf (CCs [375]) (KGoto (LCase 375) KNil) (KIf (CCs [376]) (KGoto (LCase 376) KNil) (KIf (CCs [377]) (KGoto (LCase 377) KNil) (KIf (CCs [378]) (KGoto (LCase 378) KNil) (KIf (CCs [379]) (KGoto (LCase 379) KNil) (KIf (CCs [380]) (KGoto (LCase 380) KNil) (KIf (CCs [381]) (KGoto (LCase 381) KNil) (KIf (CCs [382]) (KGoto (LCase 382) KNil) (KIf (CCs [383]) (KGoto (LCase 383) KNil) (KIf (CCs [384]) (KGoto (LCase 384) KNil) (KIf (CCs [385]) (KGoto (LCase 385) KNil) (KIf (CCs [386]) (KGoto (LCase 386) KNil) (KIf (CCs [387]) (KGoto (LCase 387) KNil) (KIf (CCs [388]) (KGoto (LCase 388) KNil) (KIf (CCs [389]) (KGoto (LCase 389) KNil) (KIf (CCs [390]) (KGoto (LCase 390) KNil) (KIf (CCs [391]) (KGoto (LCase 391) KNil) (KIf (CCs [392]) (KGoto (LCase 392) KNil) (KIf (CCs [393]) (KGoto (LCase 393) KNil) (KIf (CCs [394]) (KGoto (LCase 394) KNil) (KIf (CCs [395]) (KGoto (LCase 395) KNil) (KIf (CCs [396]) (KGoto (LCase 396) KNil) (KIf (CCs [397]) (KGoto (LCase 397) KNil) (KIf (CCs [398]) (KGoto (LCase 398) KNil) (KIf (CCs [399]) (KGoto (LCase 399) KNil) (KIf (CCs [400]) (KGoto (LCase 400) KNil) (KIf (CCs [401]) (KGoto (LCase 401) KNil) (KIf (CCs [402]) (KGoto (LCase 402) KNil) (KIf (CCs [403]) (KGoto (LCase 403) KNil) (KIf (CCs [404]) (KGoto (LCase 404) KNil) (KIf (CCs [405]) (KGoto (LCase 405) KNil) (KIf (CCs [406]) (KGoto (LCase 406) KNil) (KIf (CCs [407]) (KGoto (LCase 407) KNil) (KIf (CCs [408]) (KGoto (LCase 408) KNil) (KIf (CCs [409]) (KGoto (LCase 409) KNil) (KIf (CCs [410]) (KGoto (LCase 410) KNil) (KIf (CCs [411]) (KGoto (LCase 411) KNil) (KIf (CCs [412]) (KGoto (LCase 412) KNil) (KIf (CCs [413]) (KGoto (LCase 413) KNil) (KIf (CCs [414]) (KGoto (LCase 414) KNil) (KIf (CCs [415]) (KGoto (LCase 415) KNil) (KIf (CCs [416]) (KGoto (LCase 416) KNil) (KIf (CCs [417]) (KGoto (LCase 417) KNil) (KIf (CCs [418]) (KGoto (LCase 418) KNil) (KIf (CCs [419]) (KGoto (LCase 419) KNil) (KIf (CCs [420]) (KGoto (LCase 420) KNil) (KIf (CCs [421]) (KGoto (LCase 421) KNil) (KIf (CCs [422]) (KGoto (LCase 422) KNil) (KIf (CCs [423]) (KGoto (LCase 423) KNil) (KIf (CCs [424]) (KGoto (LCase 424) KNil) (KIf (CCs [425]) (KGoto (LCase 425) KNil) (KIf (CCs [426]) (KGoto (LCase 426) KNil) (KIf (CCs [427]) (KGoto (LCase 427) KNil) (KIf (CCs [428]) (KGoto (LCase 428) KNil) (KIf (CCs [429]) (KGoto (LCase 429) KNil) (KIf (CCs [430]) (KGoto (LCase 430) KNil) (KIf (CCs [431]) (KGoto (LCase 431) KNil) (KIf (CCs [432]) (KGoto (LCase 432) KNil) (KIf (CCs [433]) (KGoto (LCase 433) KNil) (KIf (CCs [434]) (KGoto (LCase 434) KNil) (KIf (CCs [435]) (KGoto (LCase 435) KNil) (KIf (CCs [436]) (KGoto (LCase 436) KNil) (KIf (CCs [437]) (KGoto (LCase 437) KNil) (KIf (CCs [438]) (KGoto (LCase 438) KNil) (KIf (CCs [439]) (KGoto (LCase 439) KNil) (KIf (CCs [440]) (KGoto (LCase 440) KNil) (KIf (CCs [441]) (KGoto (LCase 441) KNil) (KIf (CCs [442]) (KGoto (LCase 442) KNil) (KIf (CCs [443]) (KGoto (LCase 443) KNil) (KIf (CCs [444]) (KGoto (LCase 444) KNil) (KIf (CCs [445]) (KGoto (LCase 445) KNil) (KIf (CCs [446]) (KGoto (LCase 446) KNil) (KIf (CCs [447]) (KGoto (LCase 447) KNil) (KIf (CCs [448]) (KGoto (LCase 448) KNil) (KIf (CCs [449]) (KGoto (LCase 449) KNil) (KIf (CCs [450]) (KGoto (LCase 450) KNil) (KIf (CCs [451]) (KGoto (LCase 451) KNil) (KIf (CCs [452]) (KGoto (LCase 452) KNil) (KIf (CCs [453]) (KGoto (LCase 453) KNil) (KIf (CCs [454]) (KGoto (LCase 454) KNil) (KIf (CCs [455]) (KGoto (LCase 455) KNil) (KIf (CCs [456]) (KGoto (LCase 456) KNil) (KIf (CCs [457]) (KGoto (LCase 457) KNil) (KIf (CCs [458]) (KGoto (LCase 458) KNil) (KIf (CCs [459]) (KGoto (LCase 459) KNil) (KIf (CCs [460]) (KGoto (LCase 460) KNil) (KIf (CCs [461]) (KGoto (LCase 461) KNil) (KIf (CCs [462]) (KGoto (LCase 462) KNil) (KIf (CCs [463]) (KGoto (LCase 463) KNil) (KIf (CCs [464]) (KGoto (LCase 464) KNil) (KIf (CCs [465]) (KGoto (LCase 465) KNil) (KIf (CCs [466]) (KGoto (LCase 466) KNil) (KIf (CCs [467]) (KGoto (LCase 467) KNil) (KIf (CCs [468]) (KGoto (LCase 468) KNil) (KIf (CCs [469]) (KGoto (LCase 469) KNil) (KIf (CCs [470]) (KGoto (LCase 470) KNil) (KIf (CCs [471]) (KGoto (LCase 471) KNil) (KIf (CCs [472]) (KGoto (LCase 472) KNil) (KIf (CCs [473]) (KGoto (LCase 473) KNil) (KIf (CCs [474]) (KGoto (LCase 474) KNil) (KIf (CCs [475]) (KGoto (LCase 475) KNil) (KIf (CCs [476]) (KGoto (LCase 476) KNil) (KIf (CCs [477]) (KGoto (LCase 477) KNil) (KIf (CCs [478]) (KGoto (LCase 478) KNil) (KIf (CCs [479]) (KGoto (LCase 479) KNil) (KIf (CCs [480]) (KGoto (LCase 480) KNil) (KIf (CCs [481]) (KGoto (LCase 481) KNil) (KIf (CCs [482]) (KGoto (LCase 482) KNil) (KIf (CCs [483]) (KGoto (LCase 483) KNil) (KIf (CCs [484]) (KGoto (LCase 484) KNil) (KIf (CCs [485]) (KGoto (LCase 485) KNil) (KIf (CCs [41]) (KGoto (LCase 41) KNil) (KIf (CCs [486]) (KGoto (LCase 486) KNil) (KIf (CCs [487]) (KGoto (LCase 487) KNil) (KIf (CCs [488]) (KGoto (LCase 488) KNil) (KIf (CCs [489]) (KGoto (LCase 489) KNil) (KIf (CCs [490]) (KGoto (LCase 490) KNil) (KIf (CCs [491]) (KGoto (LCase 491) KNil) (KIf (CCs [492]) (KGoto (LCase 492) KNil) (KIf (CCs [493]) (KGoto (LCase 493) KNil) (KIf (CCs [494]) (KGoto (LCase 494) KNil) (KIf (CCs [495]) (KGoto (LCase 495) KNil) (KIf (CCs [496]) (KGoto (LCase 496) KNil) (KIf (CCs [497]) (KGoto (LCase 497) KNil) (KIf (CCs [498]) (KGoto (LCase 498) KNil) (KIf (CCs [499]) (KGoto (LCase 499) KNil) (KIf (CCs [500]) (KGoto (LCase 500) KNil) (KIf (CCs [501]) (KGoto (LCase 501) KNil) (KIf (CCs [502]) (KGoto (LCase 502) KNil) (KIf (CCs [503]) (KGoto (LCase 503) KNil) (KIf (CCs [504]) (KGoto (LCase 504) KNil) (KIf (CCs [505]) (KGoto (LCase 505) KNil) (KIf (CCs [506]) (KGoto (LCase 506) KNil) (KIf (CCs [507]) (KGoto (LCase 507) KNil) (KIf (CCs [508]) (KGoto (LCase 508) KNil) (KIf (CCs [509]) (KGoto (LCase 509) KNil) (KIf (CCs [510]) (KGoto (LCase 510) KNil) (KIf (CCs [511]) (KGoto (LCase 511) KNil) (KIf (CCs [512]) (KGoto (LCase 512) KNil) (KIf (CCs [513]) (KGoto (LCase 513) KNil) (KIf (CCs [514]) (KGoto (LCase 514) KNil) (KIf (CCs [515]) (KGoto (LCase 515) KNil) (KIf (CCs [516]) (KGoto (LCase 516) KNil) (KIf (CCs [517]) (KGoto (LCase 517) KNil) (KIf (CCs [42]) (KGoto (LCase 42) KNil) (KIf (CCs [518]) (KGoto (LCase 518) KNil) (KIf (CCs [519]) (KGoto (LCase 519) KNil) (KIf (CCs [520]) (KGoto (LCase 520) KNil) (KIf (CCs [521]) (KGoto (LCase 521) KNil) (KIf (CCs [522]) (KGoto (LCase 522) KNil) (KIf (CCs [523]) (KGoto (LCase 523) KNil) (KIf (CCs [524]) (KGoto (LCase 524) KNil) (KIf (CCs [525]) (KGoto (LCase 525) KNil) (KIf (CCs [526]) (KGoto (LCase 526) KNil) (KIf (CCs [527]) (KGoto (LCase 527) KNil) (KIf (CCs [528]) (KGoto (LCase 528) KNil) (KIf (CCs [529]) (KGoto (LCase 529) KNil) (KIf (CCs [530]) (KGoto (LCase 530) KNil) (KIf (CCs [531]) (KGoto (LCase 531) KNil) (KIf (CCs [532]) (KGoto (LCase 532) KNil) (KIf (CCs [533]) (KGoto (LCase 533) KNil) (KIf (CCs [534]) (KGoto (LCase 534) KNil) (KIf (CCs [535]) (KGoto (LCase 535) KNil) (KIf (CCs [536]) (KGoto (LCase 536) KNil) (KIf (CCs [537]) (KGoto (LCase 537) KNil) (KIf (CCs [538]) (KGoto (LCase 538) KNil) (KIf (CCs [539]) (KGoto (LCase 539) KNil) (KIf (CCs [540]) (KGoto (LCase 540) KNil) (KIf (CCs [541]) (KGoto (LCase 541) KNil) (KIf (CCs [542]) (KGoto (LCase 542) KNil) (KIf (CCs [543]) (KGoto (LCase 543) KNil) (KIf (CCs [544]) (KGoto (LCase 544) KNil) (KIf (CCs [545]) (KGoto (LCase 545) KNil) (KIf (CCs [546]) (KGoto (LCase 546) KNil) (KIf (CCs [547]) (KGoto (LCase 547) KNil) (KIf (CCs [548]) (KGoto (LCase 548) KNil) (KIf (CCs [549]) (KGoto (LCase 549) KNil) (KIf (CCs [43]) (KGoto (LCase 43) KNil) (KIf (CCs [550]) (KGoto (LCase 550) KNil) (KIf (CCs [551]) (KGoto (LCase 551) KNil) (KIf (CCs [552]) (KGoto (LCase 552) KNil) (KIf (CCs [553]) (KGoto (LCase 553) KNil) (KIf (CCs [554]) (KGoto (LCase 554) KNil) (KIf (CCs [555]) (KGoto (LCase 555) KNil) (KIf (CCs [556]) (KGoto (LCase 556) KNil) (KIf (CCs [557]) (KGoto (LCase 557) KNil) (KIf (CCs [558]) (KGoto (LCase 558) KNil) (KIf (CCs [559]) (KGoto (LCase 559) KNil) (KIf (CCs [560]) (KGoto (LCase 560) KNil) (KIf (CCs [561]) (KGoto (LCase 561) KNil) (KIf (CCs [562]) (KGoto (LCase 562) KNil) (KIf (CCs [563]) (KGoto (LCase 563) KNil) (KIf (CCs [564]) (KGoto (LCase 564) KNil) (KIf (CCs [565]) (KGoto (LCase 565) KNil) (KIf (CCs [566]) (KGoto (LCase 566) KNil) (KIf (CCs [567]) (KGoto (LCase 567) KNil) (KIf (CCs [568]) (KGoto (LCase 568) KNil) (KIf (CCs [569]) (KGoto (LCase 569) KNil) (KIf (CCs [570]) (KGoto (LCase 570) KNil) (KIf (CCs [571]) (KGoto (LCase 571) KNil) (KIf (CCs [572]) (KGoto (LCase 572) KNil) (KIf (CCs [573]) (KGoto (LCase 573) KNil) (KIf (CCs [574]) (KGoto (LCase 574) KNil) (KIf (CCs [575]) (KGoto (LCase 575) KNil) (KIf (CCs [576]) (KGoto (LCase 576) KNil) (KIf (CCs [577]) (KGoto (LCase 577) KNil) (KIf (CCs [578]) (KGoto (LCase 578) KNil) (KIf (CCs [579]) (KGoto (LCase 579) KNil) (KIf (CCs [580]) (KGoto (LCase 580) KNil) (KIf (CCs [581]) (KGoto (LCase 581) KNil) (KIf (CCs [582]) (KGoto (LCase 582) KNil) (KIf (CCs [583]) (KGoto (LCase 583) KNil) (KIf (CCs [44]) (KGoto (LCase 44) KNil) (KIf (CCs [45]) (KGoto (LCase 45) KNil) (KIf (CCs [46]) (KGoto (LCase 46) KNil) (KIf (CCs [47]) (KGoto (LCase 47) KNil) (KIf (CCs [48]) (KGoto (LCase 48) KNil) (KIf (CCs [49]) (KGoto (LCase 49) KNil) (KIf (CCs [50]) (KGoto (LCase 50) KNil) (KIf (CCs [51]) (KGoto (LCase 51) KNil) KNil KNil) KNil) KNil) KNil) KNil) KNil) KNil) KNil) KNil) KNil) KNil) KNil) KNil) KNil) KNil) KNil) KNil) KNil) KNil) KNil) KNil) KNil) KNil) KNil) KNil) KNil) KNil) KNil) KNil) KNil) KNil) KNil) KNil) KNil) KNil) KNil) KNil) KNil) KNil) KNil) KNil) KNil) KNil) KNil) KNil) KNil) KNil) KNil) KNil) KNil) KNil) KNil) KNil) KNil) KNil) KNil) KNil) KNil) KNil) KNil) KNil) KNil) KNil) KNil) KNil) KNil) KNil) KNil) KNil) KNil) KNil) KNil) KNil) KNil) KNil) KNil) KNil) KNil) KNil) KNil) KNil) KNil) KNil) KNil) KNil) KNil) KNil) KNil) KNil) KNil) KNil) KNil) KNil) KNil) KNil) KNil) KNil) KNil) KNil) KNil) KNil) KNil) KNil) KNil) KNil) KNil) KNil) KNil) KNil) KNil) KNil) KNil) KNil) KNil) KNil) KNil) KNil) KNil) KNil) KNil) KNil) KNil) KNil) KNil) KNil) KNil) KNil) KNil) KNil) KNil) KNil) KNil) KNil) KNil) KNil) KNil) KNil) KNil) KNil) KNil) KNil) KNil) KNil) KNil) KNil) KNil) KNil) KNil) KNil) KNil) KNil) KNil) KNil) KNil) KNil) KNil) KNil) KNil) KNil) KNil) KNil) KNil) KNil) KNil) KNil) KNil) KNil) KNil) KNil) KNil) KNil) KNil) KNil) KNil) KNil) KNil) KNil) KNil) KNil) KNil) KNil) KNil) KNil) KNil) KNil) KNil) KNil) KNil) KNil) KNil) KNil) KNil) KNil) KNil) KNil) KNil) KNil) KNil) KNil) KNil) KNil) KNil) KNil) KNil) KNil) KNil) KNil) KNil) KNil) KNil) KNil) KNil) KNil) KNil) KNil) KNil) KNil) KNil) KNil) KNil) KNil) KNil) KNil) KNil) KNil) KNil) KNil) KNil) KNil) KNil) KNil) KNil) KNil) KNil) KNil) KNil) KNil) KNil) KNil) KNil) KNil) KNil) KNil) KNil) KNil) KNil) KNil) KNil) KNil) KNil) KNil) KNil) KNil) KNil) KNil) KNil) KNil) KNil) KNil) KNil) KNil) KNil) KNil) KNil) KNil) KNil) KNil) KNil) KNil) KNil) KNil) KNil) KNil) KNil) KNil) KNil) KNil) KNil) KNil) KNil) KNil) KNil) KNil) KNil) KNil) KNil) KNil) KNil) KNil) KNil) KNil) KNil) KNil) KNil) KNil) KNil) KNil) KNil) KNil) KNil) KNil) KNil) KNil) KNil) KNil) KNil) KNil) KNil) KNil) KNil) KNil) KNil) KNil) KNil) KNil) KNil) KNil) KNil) KNil) KNil) KNil) KNil) KNil) KNil) KNil) KNil) KNil) KNil) KNil) KNil) KNil) KNil) KNil) KNil) KNil) KNil) KNil) KNil) KNil) KNil) KNil) KNil) KNil) KNil) KNil) KNil) KNil) KNil) KNil) KNil) KNil) KNil) KNil) KNil) KNil) KNil) KNil) KNil) KNil) KNil) KNil) KNil) KNil) KNil) KNil) KNil) KNil) KNil) KNil) KNil) KNil) KNil) KNil) KNil) KNil) KNil) KNil) KNil) KNil) KNil) KNil) KNil) KNil) KNil) KNil) KNil) KNil) KNil) KNil) KNil) KNil) KNil) KNil) KNil) KNil) KNil) KNil) KNil) KNil) KNil) KNil) KNil) KNil) KNil) KNil) KNil) KNil) KNil) KNil) KNil) KNil) KNil) KNil) KNil) KNil) KNil) KNil) KNil) KNil) KNil) KNil) KNil) KNil) KNil) KNil) KNil) KNil) KNil) KNil) KNil) KNil) KNil) KNil) KNil) KNil) KNil) KNil) KNil) KNil) KNil) KNil) KNil) KNil) KNil) KNil) KNil) KNil) KNil) KNil) KNil) KNil) KNil) KNil) KNil) KNil) KNil) KNil) KNil) KNil) KNil) KNil) KNil) KNil) KNil) KNil) KNil) KNil) KNil) KNil) KNil) KNil) KNil) KNil) KNil) KNil) KNil) KNil) KNil) KNil) KNil) KNil) KNil) KNil) KNil) KNil) KNil) KNil) KNil) KNil) KNil) KNil) KNil) KNil) KNil) KNil) KNil) KNil) KNil) KNil) KNil) KNil) KNil) KNil) KNil) KNil) KNil) KNil) KNil) KNil) KNil) KNil) KNil) KNil) KNil) KNil) KNil) KNil) KNil) KNil) KNil) KNil) KNil) KNil) KNil) KNil) KNil) KNil) KNil) KNil) KNil) KNil) KNil) KNil) KNil) KNil) KNil) KNil) KNil) KNil) KNil) KNil) KNil) KNil) KNil) KNil) KNil) KNil) KNil) KNil) KNil) KNil) KNil) KNil) KNil) KNil) KNil) KNil) KNil) KNil) KNil) KNil) KNil) KNil) KNil) KNil) KNil) KNil) KNil) KNil) KNil) KNil) KNil) KNil) KNil) KNil) KNil) KNil) KNil) KNil) KNil) KNil) KNil) KNil) KNil) (KGoto LStOut KNil))));
  (* builder.go:1251 stCase52 *) ((LCase 52), (KGoto (LTr 47) KNil));
  (* builder.go:1253 tr47 *) ((LTr 47), (KAct BPb (KGoto (LSt 53) KNil)));
  (* builder.go:1258 st53 *) ((LSt 53), (KInc (KIf CPe (KGoto (LEofN 53) KNil) KNil KNil)));
  (* builder.go:1262 stCase53 *) ((LCase 53), (KGoto (LSt 53) KNil));
  (* builder.go:1264 stCase1 *) ((LCase 1), (KIf (CAnd (CByte OGe 48) (CByte OLe 57)) (KGoto (LTr 0) KNil) KNil (KGoto (LSt 0) KNil)));
  (* builder.go:1269 stCase0 *) ((LCase 0), KNil);
  (* builder.go:1270 st0 *) ((LSt 0), (KCs 0 (KGoto LOut KNil)));
  (* builder.go:1273 tr0 *) ((LTr 0), (KAct BPb (KGoto (LSt 2) KNil)));
  (* builder.go:1278 st2 *) ((LSt 2), (KInc (KIf CPe (KGoto (LEofN 2) KNil) KNil KNil)));
  (* builder.go:1282 stCase2 *) ((LCase 2), (KIf (CAnd (CByte OGe 48) (CByte OLe 57)) (KGoto (LSt 3) KNil) KNil (KGoto (LSt 0) KNil)));
  (* builder.go:1287 st3 *) ((LSt 3), (KInc (KIf CPe (KGoto (LEofN 3) KNil) KNil KNil)));
  (* builder.go:1291 stCase3 *) ((LCase 3), (KIf (CAnd (CByte OGe 48) (CByte OLe 57)) (KGoto (LSt 4) KNil) KNil (KGoto (LSt 0) KNil)));
  (* builder.go:1296 st4 *) ((LSt 4), (KInc (KIf CPe (KGoto (LEofN 4) KNil) KNil KNil)));
  (* builder.go:1300 stCase4 *) ((LCase 4), (KIf (CAnd (CByte OGe 48) (CByte OLe 57)) (KGoto (LSt 5) KNil) KNil (KGoto (LSt 0) KNil)));
  (* builder.go:1305 st5 *) ((LSt 5), (KInc (KIf CPe (KGoto (LEofN 5) KNil) KNil KNil)));
  (* builder.go:1309 stCase5 *) ((LCase 5), (KIf (CByte OEq 45) (KGoto (LSt 6) KNil) KNil (KGoto (LSt 0) KNil)));
  (* builder.go:1314 st6 *) ((LSt 6), (KInc (KIf CPe (KGoto (LEofN 6) KNil) KNil KNil)));
  (* builder.go:1318 stCase6 *) ((LCase 6), (KBlk (KIf (CByte OEq 48) (KGoto (LSt 7) KNil) (KIf (CByte OEq 49) (KGoto (LSt 37) KNil) KNil KNil) KNil) (KGoto (LSt 0) KNil)));
  (* builder.go:1326 st7 *) ((LSt 7), (KInc (KIf CPe (KGoto (LEofN 7) KNil) KNil KNil)));
  (* builder.go:1330 stCase7 *) ((LCase 7), (KIf (CAnd (CByte OGe 49) (CByte OLe 57)) (KGoto (LSt 8) KNil) KNil (KGoto (LSt 0) KNil)));
  (* builder.go:1335 st8 *) ((LSt 8), (KInc (KIf CPe (KGoto (LEofN 8) KNil) KNil KNil)));
  (* builder.go:1339 stCase8 *) ((LCase 8), (KIf (CByte OEq 45) (KGoto (LSt 9) KNil) KNil (KGoto (LSt 0) KNil)));
  (* builder.go:1344 st9 *) ((LSt 9), (KInc (KIf CPe (KGoto (LEofN 9) KNil) KNil KNil)));
  (* builder.go:1348 stCase9 *) ((LCase 9), (KBlk (KIf (CByte OEq 48) (KGoto (LSt 10) KNil) (KIf (CByte OEq 51) (KGoto (LSt 36) KNil) KNil KNil) KNil) (KIf (CAnd (CByte OGe 49) (CByte OLe 50)) (KGoto (LSt 35) KNil) KNil (KGoto (LSt 0) KNil))));
  (* builder.go:1359 st10 *) ((LSt 10), (KInc (KIf CPe (KGoto (LEofN 10) KNil) KNil KNil)));
  (* builder.go:1363 stCase10 *) ((LCase 10), (KIf (CAnd (CByte OGe 49) (CByte OLe 57)) (KGoto (LSt 11) KNil) KNil (KGoto (LSt 0) KNil)));
  (* builder.go:1368 st11 *) ((LSt 11), (KInc (KIf CPe (KGoto (LEofN 11) KNil) KNil KNil)));
  (* builder.go:1372 stCase11 *) ((LCase 11), (KIf (CByte OEq 84) (KGoto (LSt 12) KNil) KNil (KGoto (LSt 0) KNil)));
  (* builder.go:1377 st12 *) ((LSt 12), (KInc (KIf CPe (KGoto (LEofN 12) KNil) KNil KNil)));
  (* builder.go:1381 stCase12 *) ((LCase 12), (KIf (CByte OEq 50) (KGoto (LSt 34) KNil) KNil (KIf (CAnd (CByte OGe 48) (CByte OLe 49)) (KGoto (LSt 13) KNil) KNil (KGoto (LSt 0) KNil))));
  (* builder.go:1389 st13 *) ((LSt 13), (KInc (KIf CPe (KGoto (LEofN 13) KNil) KNil KNil)));
  (* builder.go:1393 stCase13 *) ((LCase 13), (KIf (CAnd (CByte OGe 48) (CByte OLe 57)) (KGoto (LSt 14) KNil) KNil (KGoto (LSt 0) KNil)));
  (* builder.go:1398 st14 *) ((LSt 14), (KInc (KIf CPe (KGoto (LEofN 14) KNil) KNil KNil)));
  (* builder.go:1402 stCase14 *) ((LCase 14), (KIf (CByte OEq 58) (KGoto (LSt 15) KNil) KNil (KGoto (LSt 0) KNil)));
  (* builder.go:1407 st15 *) ((LSt 15), (KInc (KIf CPe (KGoto (LEofN 15) KNil) KNil KNil)));
  (* builder.go:1411 stCase15 *) ((LCase 15), (KIf (CAnd (CByte OGe 48) (CByte OLe 53)) (KGoto (LSt 16) KNil) KNil (KGoto (LSt 0) KNil)));
  (* builder.go:1416 st16 *) ((LSt 16), (KInc (KIf CPe (KGoto (LEofN 16) KNil) KNil KNil)));
  (* builder.go:1420 stCase16 *) ((LCase 16), (KIf (CAnd (CByte OGe 48) (CByte OLe 57)) (KGoto (LSt 17) KNil) KNil (KGoto (LSt 0) KNil)));
  (* builder.go:1425 st17 *) ((LSt 17), (KInc (KIf CPe (KGoto (LEofN 17) KNil) KNil KNil)));
  (* builder.go:1429 stCase17 *) ((LCase 17), (KIf (CByte OEq 58) (KGoto (LSt 18) KNil) KNil (KGoto (LSt 0) KNil)));
  (* builder.go:1434 st18 *) ((LSt 18), (KInc (KIf CPe (KGoto (LEofN 18) KNil) KNil KNil)));
  (* builder.go:1438 stCase18 *) ((LCase 18), (KIf (CAnd (CByte OGe 48) (CByte OLe 53)) (KGoto (LSt 19) KNil) KNil (KGoto (LSt 0) KNil)));
  (* builder.go:1443 st19 *) ((LSt 19), (KInc (KIf CPe (KGoto (LEofN 19) KNil) KNil KNil)));
  (* builder.go:1447 stCase19 *) ((LCase 19), (KIf (CAnd (CByte OGe 48) (CByte OLe 57)) (KGoto (LSt 20) KNil) KNil (KGoto (LSt 0) KNil)));
  (* builder.go:1452 st20 *) ((LSt 20), (KInc (KIf CPe (KGoto (LEofN 20) KNil) KNil KNil)));
  (* builder.go:1456 stCase20 *) ((LCase 20), (KBlk (KIf (CByte OEq 43) (KGoto (LSt 21) KNil) (KIf (CByte OEq 45) (KGoto (LSt 21) KNil) (KIf (CByte OEq 46) (KGoto (LSt 27) KNil) (KIf (CByte OEq 90) (KGoto (LSt 54) KNil) KNil KNil) KNil) KNil) KNil) (KGoto (LSt 0) KNil)));
  (* builder.go:1468 st21 *) ((LSt 21), (KInc (KIf CPe (KGoto (LEofN 21) KNil) KNil KNil)));
  (* builder.go:1472 stCase21 *) ((LCase 21), (KIf (CByte OEq 50) (KGoto (LSt 26) KNil) KNil (KIf (CAnd (CByte OGe 48) (CByte OLe 49)) (KGoto (LSt 22) KNil) KNil (KGoto (LSt 0) KNil))));
  (* builder.go:1480 st22 *) ((LSt 22), (KInc (KIf CPe (KGoto (LEofN 22) KNil) KNil KNil)));
  (* builder.go:1484 stCase22 *) ((LCase 22), (KIf (CAnd (CByte OGe 48) (CByte OLe 57)) (KGoto (LSt 23) KNil) KNil (KGoto (LSt 0) KNil)));
  (* builder.go:1489 st23 *) ((LSt 23), (KInc (KIf CPe (KGoto (LEofN 23) KNil) KNil KNil)));
  (* builder.go:1493 stCase23 *) ((LCase 23), (KIf (CByte OEq 58) (KGoto (LSt 24) KNil) KNil (KGoto (LSt 0) KNil)));
  (* builder.go:1498 st24 *) ((LSt 24), (KInc (KIf CPe (KGoto (LEofN 24) KNil) KNil KNil)));
  (* builder.go:1502 stCase24 *) ((LCase 24), (KIf (CAnd (CByte OGe 48) (CByte OLe 53)) (KGoto (LSt 25) KNil) KNil (KGoto (LSt 0) KNil)));
  (* builder.go:1507 st25 *) ((LSt 25), (KInc (KIf CPe (KGoto (LEofN 25) KNil) KNil KNil)));
  (* builder.go:1511 stCase25 *) ((LCase 25), (KIf (CAnd (CByte OGe 48) (CByte OLe 57)) (KGoto (LSt 54) KNil) KNil (KGoto (LSt 0) KNil)));
  (* builder.go:1516 st54 *) ((LSt 54), (KInc (KIf CPe (KGoto (LEofN 54) KNil) KNil KNil)));
  (* builder.go:1520 stCase54 *) ((LCase 54), (KGoto (LSt 0) KNil));
  (* builder.go:1522 st26 *) ((LSt 26), (KInc (KIf CPe (KGoto (LEofN 26) KNil) KNil KNil)))
].

(* /repo/rfc5424/builder.go *)
Definition progBuilder_1 : list (label * code act cnd) := [
  (* builder.go:1526 stCase26 *) ((LCase 26), (KIf (CAnd (CByte OGe 48) (CByte OLe 51)) (KGoto (LSt 23) KNil) KNil (KGoto (LSt 0) KNil)));
  (* builder.go:1531 st27 *) ((LSt 27), (KInc (KIf CPe (KGoto (LEofN 27) KNil) KNil KNil)));
  (* builder.go:1535 stCase27 *) ((LCase 27), (KIf (CAnd (CByte OGe 48) (CByte OLe 57)) (KGoto (LSt 28) KNil) KNil (KGoto (LSt 0) KNil)));
  (* builder.go:1540 st28 *) ((LSt 28), (KInc (KIf CPe (KGoto (LEofN 28) KNil) KNil KNil)));
  (* builder.go:1544 stCase28 *) ((LCase 28), (KBlk (KIf (CByte OEq 43) (KGoto (LSt 21) KNil) (KIf (CByte OEq 45) (KGoto (LSt 21) KNil) (KIf (CByte OEq 90) (KGoto (LSt 54) KNil) KNil KNil) KNil) KNil) (KIf (CAnd (CByte OGe 48) (CByte OLe 57)) (KGoto (LSt 29) KNil) KNil (KGoto (LSt 0) KNil))));
  (* builder.go:1557 st29 *) ((LSt 29), (KInc (KIf CPe (KGoto (LEofN 29) KNil) KNil KNil)));
  (* builder.go:1561 stCase29 *) ((LCase 29), (KBlk (KIf (CByte OEq 43) (KGoto (LSt 21) KNil) (KIf (CByte OEq 45) (KGoto (LSt 21) KNil) (KIf (CByte OEq 90) (KGoto (LSt 54) KNil) KNil KNil) KNil) KNil) (KIf (CAnd (CByte OGe 48) (CByte OLe 57)) (KGoto (LSt 30) KNil) KNil (KGoto (LSt 0) KNil))));
  (* builder.go:1574 st30 *) ((LSt 30), (KInc (KIf CPe (KGoto (LEofN 30) KNil) KNil KNil)));
  (* builder.go:1578 stCase30 *) ((LCase 30), (KBlk (KIf (CByte OEq 43) (KGoto (LSt 21) KNil) (KIf (CByte OEq 45) (KGoto (LSt 21) KNil) (KIf (CByte OEq 90) (KGoto (LSt 54) KNil) KNil KNil) KNil) KNil) (KIf (CAnd (CByte OGe 48) (CByte OLe 57)) (KGoto (LSt 31) KNil) KNil (KGoto (LSt 0) KNil))));
  (* builder.go:1591 st31 *) ((LSt 31), (KInc (KIf CPe (KGoto (LEofN 31) KNil) KNil KNil)));
  (* builder.go:1595 stCase31 *) ((LCase 31), (KBlk (KIf (CByte OEq 43) (KGoto (LSt 21) KNil) (KIf (CByte OEq 45) (KGoto (LSt 21) KNil) (KIf (CByte OEq 90) (KGoto (LSt 54) KNil) KNil KNil) KNil) KNil) (KIf (CAnd (CByte OGe 48) (CByte OLe 57)) (KGoto (LSt 32) KNil) KNil (KGoto (LSt 0) KNil))));
  (* builder.go:1608 st32 *) ((LSt 32), (KInc (KIf CPe (KGoto (LEofN 32) KNil) KNil KNil)));
  (* builder.go:1612 stCase32 *) ((LCase 32), (KBlk (KIf (CByte OEq 43) (KGoto (LSt 21) KNil) (KIf (CByte OEq 45) (KGoto (LSt 21) KNil) (KIf (CByte OEq 90) (KGoto (LSt 54) KNil) KNil KNil) KNil) KNil) (KIf (CAnd (CByte OGe 48) (CByte OLe 57)) (KGoto (LSt 33) KNil) KNil (KGoto (LSt 0) KNil))));
  (* builder.go:1625 st33 *) ((LSt 33), (KInc (KIf CPe (KGoto (LEofN 33) KNil) KNil KNil)));
  (* builder.go:1629 stCase33 *) ((LCase 33), (KBlk (KIf (CByte OEq 43) (KGoto (LSt 21) KNil) (KIf (CByte OEq 45) (KGoto (LSt 21) KNil) (KIf (CByte OEq 90) (KGoto (LSt 54) KNil) KNil KNil) KNil) KNil) (KGoto (LSt 0) KNil)));
  (* builder.go:1639 st34 *) ((LSt 34), (KInc (KIf CPe (KGoto (LEofN 34) KNil) KNil KNil)));
  (* builder.go:1643 stCase34 *) ((LCase 34), (KIf (CAnd (CByte OGe 48) (CByte OLe 51)) (KGoto (LSt 14) KNil) KNil (KGoto (LSt 0) KNil)));
  (* builder.go:1648 st35 *) ((LSt 35), (KInc (KIf CPe (KGoto (LEofN 35) KNil) KNil KNil)));
  (* builder.go:1652 stCase35 *) ((LCase 35), (KIf (CAnd (CByte OGe 48) (CByte OLe 57)) (KGoto (LSt 11) KNil) KNil (KGoto (LSt 0) KNil)));
  (* builder.go:1657 st36 *) ((LSt 36), (KInc (KIf CPe (KGoto (LEofN 36) KNil) KNil KNil)));
  (* builder.go:1661 stCase36 *) ((LCase 36), (KIf (CAnd (CByte OGe 48) (CByte OLe 49)) (KGoto (LSt 11) KNil) KNil (KGoto (LSt 0) KNil)));
  (* builder.go:1666 st37 *) ((LSt 37), (KInc (KIf CPe (KGoto (LEofN 37) KNil) KNil KNil)));
  (* builder.go:1670 stCase37 *) ((LCase 37), (KIf (CAnd (CByte OGe 48) (CByte OLe 50)) (KGoto (LSt 8) KNil) KNil (KGoto (LSt 0) KNil)));
  (* builder.go:1675 stCase38 *) ((LCase 38), (KIf (CAnd (CByte OGe 33) (CByte OLe 126)) (KGoto (LTr 38) KNil) KNil (KGoto (LSt 0) KNil)));
  (* builder.go:1680 tr38 *) ((LTr 38), (KAct BPb (KGoto (LSt 55) KNil)));
  (* builder.go:1685 st55 *) ((LSt 55), (KInc (KIf CPe (KGoto (LEofN 55) KNil) KNil KNil)));
  (* builder.go:1689 stCase55 *) ((LCase 55), (KIf (CAnd (CByte OGe 33) (CByte OLe 126)) (KGoto (LSt 56) KNil) KNil (KGoto (LSt 0) KNil)));
  (* builder.go:1694 st56 *) ((LSt 56), (KInc (KIf CPe (KGoto (LEofN 56) KNil) KNil KNil)));
  (* builder.go:1698 stCase56 *) ((LCase 56), (KIf (CAnd (CByte OGe 33) (CByte OLe 126)) (KGoto (LSt 57) KNil) KNil (KGoto (LSt 0) KNil)));
  (* builder.go:1703 st57 *) ((LSt 57), (KInc (KIf CPe (KGoto (LEofN 57) KNil) KNil KNil)));
  (* builder.go:1707 stCase57 *) ((LCase 57), (KIf (CAnd (CByte OGe 33) (CByte OLe 126)) (KGoto (LSt 58) KNil) KNil (KGoto (LSt 0) KNil)));
  (* builder.go:1712 st58 *) ((LSt 58), (KInc (KIf CPe (KGoto (LEofN 58) KNil) KNil KNil)));
  (* builder.go:1716 stCase58 *) ((LCase 58), (KIf (CAnd (CByte OGe 33) (CByte OLe 126)) (KGoto (LSt 59) KNil) KNil (KGoto (LSt 0) KNil)));
  (* builder.go:1721 st59 *) ((LSt 59), (KInc (KIf CPe (KGoto (LEofN 59) KNil) KNil KNil)));
  (* builder.go:1725 stCase59 *) ((LCase 59), (KIf (CAnd (CByte OGe 33) (CByte OLe 126)) (KGoto (LSt 60) KNil) KNil (KGoto (LSt 0) KNil)));
  (* builder.go:1730 st60 *) ((LSt 60), (KInc (KIf CPe (KGoto (LEofN 60) KNil) KNil KNil)));
  (* builder.go:1734 stCase60 *) ((LCase 60), (KIf (CAnd (CByte OGe 33) (CByte OLe 126)) (KGoto (LSt 61) KNil) KNil (KGoto (LSt 0) KNil)));
  (* builder.go:1739 st61 *) ((LSt 61), (KInc (KIf CPe (KGoto (LEofN 61) KNil) KNil KNil)));
  (* builder.go:1743 stCase61 *) ((LCase 61), (KIf (CAnd (CByte OGe 33) (CByte OLe 126)) (KGoto (LSt 62) KNil) KNil (KGoto (LSt 0) KNil)));
  (* builder.go:1748 st62 *) ((LSt 62), (KInc (KIf CPe (KGoto (LEofN 62) KNil) KNil KNil)));
  (* builder.go:1752 stCase62 *) ((LCase 62), (KIf (CAnd (CByte OGe 33) (CByte OLe 126)) (KGoto (LSt 63) KNil) KNil (KGoto (LSt 0) KNil)));
  (* builder.go:1757 st63 *) ((LSt 63), (KInc (KIf CPe (KGoto (LEofN 63) KNil) KNil KNil)));
  (* builder.go:1761 stCase63 *) ((LCase 63), (KIf (CAnd (CByte OGe 33) (CByte OLe 126)) (KGoto (LSt 64) KNil) KNil (KGoto (LSt 0) KNil)));
  (* builder.go:1766 st64 *) ((LSt 64), (KInc (KIf CPe (KGoto (LEofN 64) KNil) KNil KNil)));
  (* builder.go:1770 stCase64 *) ((LCase 64), (KIf (CAnd (CByte OGe 33) (CByte OLe 126)) (KGoto (LSt 65) KNil) KNil (KGoto (LSt 0) KNil)));
  (* builder.go:1775 st65 *) ((LSt 65), (KInc (KIf CPe (KGoto (LEofN 65) KNil) KNil KNil)));
  (* builder.go:1779 stCase65 *) ((LCase 65), (KIf (CAnd (CByte OGe 33) (CByte OLe 126)) (KGoto (LSt 66) KNil) KNil (KGoto (LSt 0) KNil)));
  (* builder.go:1784 st66 *) ((LSt 66), (KInc (KIf CPe (KGoto (LEofN 66) KNil) KNil KNil)));
  (* builder.go:1788 stCase66 *) ((LCase 66), (KIf (CAnd (CByte OGe 33) (CByte OLe 126)) (KGoto (LSt 67) KNil) KNil (KGoto (LSt 0) KNil)));
  (* builder.go:1793 st67 *) ((LSt 67), (KInc (KIf CPe (KGoto (LEofN 67) KNil) KNil KNil)));
  (* builder.go:1797 stCase67 *) ((LCase 67), (KIf (CAnd (CByte OGe 33) (CByte OLe 126)) (KGoto (LSt 68) KNil) KNil (KGoto (LSt 0) KNil)));
  (* builder.go:1802 st68 *) ((LSt 68), (KInc (KIf CPe (KGoto (LEofN 68) KNil) KNil KNil)));
  (* builder.go:1806 stCase68 *) ((LCase 68), (KIf (CAnd (CByte OGe 33) (CByte OLe 126)) (KGoto (LSt 69) KNil) KNil (KGoto (LSt 0) KNil)));
  (* builder.go:1811 st69 *) ((LSt 69), (KInc (KIf CPe (KGoto (LEofN 69) KNil) KNil KNil)));
  (* builder.go:1815 stCase69 *) ((LCase 69), (KIf (CAnd (CByte OGe 33) (CByte OLe 126)) (KGoto (LSt 70) KNil) KNil (KGoto (LSt 0) KNil)));
  (* builder.go:1820 st70 *) ((LSt 70), (KInc (KIf CPe (KGoto (LEofN 70) KNil) KNil KNil)));
  (* builder.go:1824 stCase70 *) ((LCase 70), (KIf (CAnd (CByte OGe 33) (CByte OLe 126)) (KGoto (LSt 71) KNil) KNil (KGoto (LSt 0) KNil)));
  (* builder.go:1829 st71 *) ((LSt 71), (KInc (KIf CPe (KGoto (LEofN 71) KNil) KNil KNil)));
  (* builder.go:1833 stCase71 *) ((LCase 71), (KIf (CAnd (CByte OGe 33) (CByte OLe 126)) (KGoto (LSt 72) KNil) KNil (KGoto (LSt 0) KNil)));
  (* builder.go:1838 st72 *) ((LSt 72), (KInc (KIf CPe (KGoto (LEofN 72) KNil) KNil KNil)))
].

(* /repo/rfc5424/builder.go *)
Definition progBuilder_2 : list (label * code act cnd) := [
  (* builder.go:1842 stCase72 *) ((LCase 72), (KIf (CAnd (CByte OGe 33) (CByte OLe 126)) (KGoto (LSt 73) KNil) KNil (KGoto (LSt 0) KNil)));
  (* builder.go:1847 st73 *) ((LSt 73), (KInc (KIf CPe (KGoto (LEofN 73) KNil) KNil KNil)));
  (* builder.go:1851 stCase73 *) ((LCase 73), (KIf (CAnd (CByte OGe 33) (CByte OLe 126)) (KGoto (LSt 74) KNil) KNil (KGoto (LSt 0) KNil)));
  (* builder.go:1856 st74 *) ((LSt 74), (KInc (KIf CPe (KGoto (LEofN 74) KNil) KNil KNil)));
  (* builder.go:1860 stCase74 *) ((LCase 74), (KIf (CAnd (CByte OGe 33) (CByte OLe 126)) (KGoto (LSt 75) KNil) KNil (KGoto (LSt 0) KNil)));
  (* builder.go:1865 st75 *) ((LSt 75), (KInc (KIf CPe (KGoto (LEofN 75) KNil) KNil KNil)));
  (* builder.go:1869 stCase75 *) ((LCase 75), (KIf (CAnd (CByte OGe 33) (CByte OLe 126)) (KGoto (LSt 76) KNil) KNil (KGoto (LSt 0) KNil)));
  (* builder.go:1874 st76 *) ((LSt 76), (KInc (KIf CPe (KGoto (LEofN 76) KNil) KNil KNil)));
  (* builder.go:1878 stCase76 *) ((LCase 76), (KIf (CAnd (CByte OGe 33) (CByte OLe 126)) (KGoto (LSt 77) KNil) KNil (KGoto (LSt 0) KNil)));
  (* builder.go:1883 st77 *) ((LSt 77), (KInc (KIf CPe (KGoto (LEofN 77) KNil) KNil KNil)));
  (* builder.go:1887 stCase77 *) ((LCase 77), (KIf (CAnd (CByte OGe 33) (CByte OLe 126)) (KGoto (LSt 78) KNil) KNil (KGoto (LSt 0) KNil)));
  (* builder.go:1892 st78 *) ((LSt 78), (KInc (KIf CPe (KGoto (LEofN 78) KNil) KNil KNil)));
  (* builder.go:1896 stCase78 *) ((LCase 78), (KIf (CAnd (CByte OGe 33) (CByte OLe 126)) (KGoto (LSt 79) KNil) KNil (KGoto (LSt 0) KNil)));
  (* builder.go:1901 st79 *) ((LSt 79), (KInc (KIf CPe (KGoto (LEofN 79) KNil) KNil KNil)));
  (* builder.go:1905 stCase79 *) ((LCase 79), (KIf (CAnd (CByte OGe 33) (CByte OLe 126)) (KGoto (LSt 80) KNil) KNil (KGoto (LSt 0) KNil)));
  (* builder.go:1910 st80 *) ((LSt 80), (KInc (KIf CPe (KGoto (LEofN 80) KNil) KNil KNil)));
  (* builder.go:1914 stCase80 *) ((LCase 80), (KIf (CAnd (CByte OGe 33) (CByte OLe 126)) (KGoto (LSt 81) KNil) KNil (KGoto (LSt 0) KNil)));
  (* builder.go:1919 st81 *) ((LSt 81), (KInc (KIf CPe (KGoto (LEofN 81) KNil) KNil KNil)));
  (* builder.go:1923 stCase81 *) ((LCase 81), (KIf (CAnd (CByte OGe 33) (CByte OLe 126)) (KGoto (LSt 82) KNil) KNil (KGoto (LSt 0) KNil)));
  (* builder.go:1928 st82 *) ((LSt 82), (KInc (KIf CPe (KGoto (LEofN 82) KNil) KNil KNil)));
  (* builder.go:1932 stCase82 *) ((LCase 82), (KIf (CAnd (CByte OGe 33) (CByte OLe 126)) (KGoto (LSt 83) KNil) KNil (KGoto (LSt 0) KNil)));
  (* builder.go:1937 st83 *) ((LSt 83), (KInc (KIf CPe (KGoto (LEofN 83) KNil) KNil KNil)));
  (* builder.go:1941 stCase83 *) ((LCase 83), (KIf (CAnd (CByte OGe 33) (CByte OLe 126)) (KGoto (LSt 84) KNil) KNil (KGoto (LSt 0) KNil)));
  (* builder.go:1946 st84 *) ((LSt 84), (KInc (KIf CPe (KGoto (LEofN 84) KNil) KNil KNil)));
  (* builder.go:1950 stCase84 *) ((LCase 84), (KIf (CAnd (CByte OGe 33) (CByte OLe 126)) (KGoto (LSt 85) KNil) KNil (KGoto (LSt 0) KNil)));
  (* builder.go:1955 st85 *) ((LSt 85), (KInc (KIf CPe (KGoto (LEofN 85) KNil) KNil KNil)));
  (* builder.go:1959 stCase85 *) ((LCase 85), (KIf (CAnd (CByte OGe 33) (CByte OLe 126)) (KGoto (LSt 86) KNil) KNil (KGoto (LSt 0) KNil)));
  (* builder.go:1964 st86 *) ((LSt 86), (KInc (KIf CPe (KGoto (LEofN 86) KNil) KNil KNil)));
  (* builder.go:1968 stCase86 *) ((LCase 86), (KIf (CAnd (CByte OGe 33) (CByte OLe 126)) (KGoto (LSt 87) KNil) KNil (KGoto (LSt 0) KNil)));
  (* builder.go:1973 st87 *) ((LSt 87), (KInc (KIf CPe (KGoto (LEofN 87) KNil) KNil KNil)));
  (* builder.go:1977 stCase87 *) ((LCase 87), (KIf (CAnd (CByte OGe 33) (CByte OLe 126)) (KGoto (LSt 88) KNil) KNil (KGoto (LSt 0) KNil)));
  (* builder.go:1982 st88 *) ((LSt 88), (KInc (KIf CPe (KGoto (LEofN 88) KNil) KNil KNil)));
  (* builder.go:1986 stCase88 *) ((LCase 88), (KIf (CAnd (CByte OGe 33) (CByte OLe 126)) (KGoto (LSt 89) KNil) KNil (KGoto (LSt 0) KNil)));
  (* builder.go:1991 st89 *) ((LSt 89), (KInc (KIf CPe (KGoto (LEofN 89) KNil) KNil KNil)));
  (* builder.go:1995 stCase89 *) ((LCase 89), (KIf (CAnd (CByte OGe 33) (CByte OLe 126)) (KGoto (LSt 90) KNil) KNil (KGoto (LSt 0) KNil)));
  (* builder.go:2000 st90 *) ((LSt 90), (KInc (KIf CPe (KGoto (LEofN 90) KNil) KNil KNil)));
  (* builder.go:2004 stCase90 *) ((LCase 90), (KIf (CAnd (CByte OGe 33) (CByte OLe 126)) (KGoto (LSt 91) KNil) KNil (KGoto (LSt 0) KNil)));
  (* builder.go:2009 st91 *) ((LSt 91), (KInc (KIf CPe (KGoto (LEofN 91) KNil) KNil KNil)));
  (* builder.go:2013 stCase91 *) ((LCase 91), (KIf (CAnd (CByte OGe 33) (CByte OLe 126)) (KGoto (LSt 92) KNil) KNil (KGoto (LSt 0) KNil)));
  (* builder.go:2018 st92 *) ((LSt 92), (KInc (KIf CPe (KGoto (LEofN 92) KNil) KNil KNil)));
  (* builder.go:2022 stCase92 *) ((LCase 92), (KIf (CAnd (CByte OGe 33) (CByte OLe 126)) (KGoto (LSt 93) KNil) KNil (KGoto (LSt 0) KNil)));
  (* builder.go:2027 st93 *) ((LSt 93), (KInc (KIf CPe (KGoto (LEofN 93) KNil) KNil KNil)));
  (* builder.go:2031 stCase93 *) ((LCase 93), (KIf (CAnd (CByte OGe 33) (CByte OLe 126)) (KGoto (LSt 94) KNil) KNil (KGoto (LSt 0) KNil)));
  (* builder.go:2036 st94 *) ((LSt 94), (KInc (KIf CPe (KGoto (LEofN 94) KNil) KNil KNil)));
  (* builder.go:2040 stCase94 *) ((LCase 94), (KIf (CAnd (CByte OGe 33) (CByte OLe 126)) (KGoto (LSt 95) KNil) KNil (KGoto (LSt 0) KNil)));
  (* builder.go:2045 st95 *) ((LSt 95), (KInc (KIf CPe (KGoto (LEofN 95) KNil) KNil KNil)));
  (* builder.go:2049 stCase95 *) ((LCase 95), (KIf (CAnd (CByte OGe 33) (CByte OLe 126)) (KGoto (LSt 96) KNil) KNil (KGoto (LSt 0) KNil)));
  (* builder.go:2054 st96 *) ((LSt 96), (KInc (KIf CPe (KGoto (LEofN 96) KNil) KNil KNil)));
  (* builder.go:2058 stCase96 *) ((LCase 96), (KIf (CAnd (CByte OGe 33) (CByte OLe 126)) (KGoto (LSt 97) KNil) KNil (KGoto (LSt 0) KNil)));
  (* builder.go:2063 st97 *) ((LSt 97), (KInc (KIf CPe (KGoto (LEofN 97) KNil) KNil KNil)));
  (* builder.go:2067 stCase97 *) ((LCase 97), (KIf (CAnd (CByte OGe 33) (CByte OLe 126)) (KGoto (LSt 98) KNil) KNil (KGoto (LSt 0) KNil)));
  (* builder.go:2072 st98 *) ((LSt 98), (KInc (KIf CPe (KGoto (LEofN 98) KNil) KNil KNil)));
  (* builder.go:2076 stCase98 *) ((LCase 98), (KIf (CAnd (CByte OGe 33) (CByte OLe 126)) (KGoto (LSt 99) KNil) KNil (KGoto (LSt 0) KNil)));
  (* builder.go:2081 st99 *) ((LSt 99), (KInc (KIf CPe (KGoto (LEofN 99) KNil) KNil KNil)));
  (* builder.go:2085 stCase99 *) ((LCase 99), (KIf (CAnd (CByte OGe 33) (CByte OLe 126)) (KGoto (LSt 100) KNil) KNil (KGoto (LSt 0) KNil)));
  (* builder.go:2090 st100 *) ((LSt 100), (KInc (KIf CPe (KGoto (LEofN 100) KNil) KNil KNil)));
  (* builder.go:2094 stCase100 *) ((LCase 100), (KIf (CAnd (CByte OGe 33) (CByte OLe 126)) (KGoto (LSt 101) KNil) KNil (KGoto (LSt 0) KNil)));
  (* builder.go:2099 st101 *) ((LSt 101), (KInc (KIf CPe (KGoto (LEofN 101) KNil) KNil KNil)));
  (* builder.go:2103 stCase101 *) ((LCase 101), (KIf (CAnd (CByte OGe 33) (CByte OLe 126)) (KGoto (LSt 102) KNil) KNil (KGoto (LSt 0) KNil)));
  (* builder.go:2108 st102 *) ((LSt 102), (KInc (KIf CPe (KGoto (LEofN 102) KNil) KNil KNil)))
].

(* /repo/rfc5424/builder.go *)
Definition progBuilder_3 : list (label * code act cnd) := [
  (* builder.go:2112 stCase102 *) ((LCase 102), (KIf (CAnd (CByte OGe 33) (CByte OLe 126)) (KGoto (LSt 103) KNil) KNil (KGoto (LSt 0) KNil)));
  (* builder.go:2117 st103 *) ((LSt 103), (KInc (KIf CPe (KGoto (LEofN 103) KNil) KNil KNil)));
  (* builder.go:2121 stCase103 *) ((LCase 103), (KIf (CAnd (CByte OGe 33) (CByte OLe 126)) (KGoto (LSt 104) KNil) KNil (KGoto (LSt 0) KNil)));
  (* builder.go:2126 st104 *) ((LSt 104), (KInc (KIf CPe (KGoto (LEofN 104) KNil) KNil KNil)));
  (* builder.go:2130 stCase104 *) ((LCase 104), (KIf (CAnd (CByte OGe 33) (CByte OLe 126)) (KGoto (LSt 105) KNil) KNil (KGoto (LSt 0) KNil)));
  (* builder.go:2135 st105 *) ((LSt 105), (KInc (KIf CPe (KGoto (LEofN 105) KNil) KNil KNil)));
  (* builder.go:2139 stCase105 *) ((LCase 105), (KIf (CAnd (CByte OGe 33) (CByte OLe 126)) (KGoto (LSt 106) KNil) KNil (KGoto (LSt 0) KNil)));
  (* builder.go:2144 st106 *) ((LSt 106), (KInc (KIf CPe (KGoto (LEofN 106) KNil) KNil KNil)));
  (* builder.go:2148 stCase106 *) ((LCase 106), (KIf (CAnd (CByte OGe 33) (CByte OLe 126)) (KGoto (LSt 107) KNil) KNil (KGoto (LSt 0) KNil)));
  (* builder.go:2153 st107 *) ((LSt 107), (KInc (KIf CPe (KGoto (LEofN 107) KNil) KNil KNil)));
  (* builder.go:2157 stCase107 *) ((LCase 107), (KIf (CAnd (CByte OGe 33) (CByte OLe 126)) (KGoto (LSt 108) KNil) KNil (KGoto (LSt 0) KNil)));
  (* builder.go:2162 st108 *) ((LSt 108), (KInc (KIf CPe (KGoto (LEofN 108) KNil) KNil KNil)));
  (* builder.go:2166 stCase108 *) ((LCase 108), (KIf (CAnd (CByte OGe 33) (CByte OLe 126)) (KGoto (LSt 109) KNil) KNil (KGoto (LSt 0) KNil)));
  (* builder.go:2171 st109 *) ((LSt 109), (KInc (KIf CPe (KGoto (LEofN 109) KNil) KNil KNil)));
  (* builder.go:2175 stCase109 *) ((LCase 109), (KIf (CAnd (CByte OGe 33) (CByte OLe 126)) (KGoto (LSt 110) KNil) KNil (KGoto (LSt 0) KNil)));
  (* builder.go:2180 st110 *) ((LSt 110), (KInc (KIf CPe (KGoto (LEofN 110) KNil) KNil KNil)));
  (* builder.go:2184 stCase110 *) ((LCase 110), (KIf (CAnd (CByte OGe 33) (CByte OLe 126)) (KGoto (LSt 111) KNil) KNil (KGoto (LSt 0) KNil)));
  (* builder.go:2189 st111 *) ((LSt 111), (KInc (KIf CPe (KGoto (LEofN 111) KNil) KNil KNil)));
  (* builder.go:2193 stCase111 *) ((LCase 111), (KIf (CAnd (CByte OGe 33) (CByte OLe 126)) (KGoto (LSt 112) KNil) KNil (KGoto (LSt 0) KNil)));
  (* builder.go:2198 st112 *) ((LSt 112), (KInc (KIf CPe (KGoto (LEofN 112) KNil) KNil KNil)));
  (* builder.go:2202 stCase112 *) ((LCase 112), (KIf (CAnd (CByte OGe 33) (CByte OLe 126)) (KGoto (LSt 113) KNil) KNil (KGoto (LSt 0) KNil)));
  (* builder.go:2207 st113 *) ((LSt 113), (KInc (KIf CPe (KGoto (LEofN 113) KNil) KNil KNil)));
  (* builder.go:2211 stCase113 *) ((LCase 113), (KIf (CAnd (CByte OGe 33) (CByte OLe 126)) (KGoto (LSt 114) KNil) KNil (KGoto (LSt 0) KNil)));
  (* builder.go:2216 st114 *) ((LSt 114), (KInc (KIf CPe (KGoto (LEofN 114) KNil) KNil KNil)));
  (* builder.go:2220 stCase114 *) ((LCase 114), (KIf (CAnd (CByte OGe 33) (CByte OLe 126)) (KGoto (LSt 115) KNil) KNil (KGoto (LSt 0) KNil)));
  (* builder.go:2225 st115 *) ((LSt 115), (KInc (KIf CPe (KGoto (LEofN 115) KNil) KNil KNil)));
  (* builder.go:2229 stCase115 *) ((LCase 115), (KIf (CAnd (CByte OGe 33) (CByte OLe 126)) (KGoto (LSt 116) KNil) KNil (KGoto (LSt 0) KNil)));
  (* builder.go:2234 st116 *) ((LSt 116), (KInc (KIf CPe (KGoto (LEofN 116) KNil) KNil KNil)));
  (* builder.go:2238 stCase116 *) ((LCase 116), (KIf (CAnd (CByte OGe 33) (CByte OLe 126)) (KGoto (LSt 117) KNil) KNil (KGoto (LSt 0) KNil)));
  (* builder.go:2243 st117 *) ((LSt 117), (KInc (KIf CPe (KGoto (LEofN 117) KNil) KNil KNil)));
  (* builder.go:2247 stCase117 *) ((LCase 117), (KIf (CAnd (CByte OGe 33) (CByte OLe 126)) (KGoto (LSt 118) KNil) KNil (KGoto (LSt 0) KNil)));
  (* builder.go:2252 st118 *) ((LSt 118), (KInc (KIf CPe (KGoto (LEofN 118) KNil) KNil KNil)));
  (* builder.go:2256 stCase118 *) ((LCase 118), (KIf (CAnd (CByte OGe 33) (CByte OLe 126)) (KGoto (LSt 119) KNil) KNil (KGoto (LSt 0) KNil)));
  (* builder.go:2261 st119 *) ((LSt 119), (KInc (KIf CPe (KGoto (LEofN 119) KNil) KNil KNil)));
  (* builder.go:2265 stCase119 *) ((LCase 119), (KIf (CAnd (CByte OGe 33) (CByte OLe 126)) (KGoto (LSt 120) KNil) KNil (KGoto (LSt 0) KNil)));
  (* builder.go:2270 st120 *) ((LSt 120), (KInc (KIf CPe (KGoto (LEofN 120) KNil) KNil KNil)));
  (* builder.go:2274 stCase120 *) ((LCase 120), (KIf (CAnd (CByte OGe 33) (CByte OLe 126)) (KGoto (LSt 121) KNil) KNil (KGoto (LSt 0) KNil)));
  (* builder.go:2279 st121 *) ((LSt 121), (KInc (KIf CPe (KGoto (LEofN 121) KNil) KNil KNil)));
  (* builder.go:2283 stCase121 *) ((LCase 121), (KIf (CAnd (CByte OGe 33) (CByte OLe 126)) (KGoto (LSt 122) KNil) KNil (KGoto (LSt 0) KNil)));
  (* builder.go:2288 st122 *) ((LSt 122), (KInc (KIf CPe (KGoto (LEofN 122) KNil) KNil KNil)));
  (* builder.go:2292 stCase122 *) ((LCase 122), (KIf (CAnd (CByte OGe 33) (CByte OLe 126)) (KGoto (LSt 123) KNil) KNil (KGoto (LSt 0) KNil)));
  (* builder.go:2297 st123 *) ((LSt 123), (KInc (KIf CPe (KGoto (LEofN 123) KNil) KNil KNil)));
  (* builder.go:2301 stCase123 *) ((LCase 123), (KIf (CAnd (CByte OGe 33) (CByte OLe 126)) (KGoto (LSt 124) KNil) KNil (KGoto (LSt 0) KNil)));
  (* builder.go:2306 st124 *) ((LSt 124), (KInc (KIf CPe (KGoto (LEofN 124) KNil) KNil KNil)));
  (* builder.go:2310 stCase124 *) ((LCase 124), (KIf (CAnd (CByte OGe 33) (CByte OLe 126)) (KGoto (LSt 125) KNil) KNil (KGoto (LSt 0) KNil)));
  (* builder.go:2315 st125 *) ((LSt 125), (KInc (KIf CPe (KGoto (LEofN 125) KNil) KNil KNil)));
  (* builder.go:2319 stCase125 *) ((LCase 125), (KIf (CAnd (CByte OGe 33) (CByte OLe 126)) (KGoto (LSt 126) KNil) KNil (KGoto (LSt 0) KNil)));
  (* builder.go:2324 st126 *) ((LSt 126), (KInc (KIf CPe (KGoto (LEofN 126) KNil) KNil KNil)));
  (* builder.go:2328 stCase126 *) ((LCase 126), (KIf (CAnd (CByte OGe 33) (CByte OLe 126)) (KGoto (LSt 127) KNil) KNil (KGoto (LSt 0) KNil)));
  (* builder.go:2333 st127 *) ((LSt 127), (KInc (KIf CPe (KGoto (LEofN 127) KNil) KNil KNil)));
  (* builder.go:2337 stCase127 *) ((LCase 127), (KIf (CAnd (CByte OGe 33) (CByte OLe 126)) (KGoto (LSt 128) KNil) KNil (KGoto (LSt 0) KNil)));
  (* builder.go:2342 st128 *) ((LSt 128), (KInc (KIf CPe (KGoto (LEofN 128) KNil) KNil KNil)));
  (* builder.go:2346 stCase128 *) ((LCase 128), (KIf (CAnd (CByte OGe 33) (CByte OLe 126)) (KGoto (LSt 129) KNil) KNil (KGoto (LSt 0) KNil)));
  (* builder.go:2351 st129 *) ((LSt 129), (KInc (KIf CPe (KGoto (LEofN 129) KNil) KNil KNil)));
  (* builder.go:2355 stCase129 *) ((LCase 129), (KIf (CAnd (CByte OGe 33) (CByte OLe 126)) (KGoto (LSt 130) KNil) KNil (KGoto (LSt 0) KNil)));
  (* builder.go:2360 st130 *) ((LSt 130), (KInc (KIf CPe (KGoto (LEofN 130) KNil) KNil KNil)));
  (* builder.go:2364 stCase130 *) ((LCase 130), (KIf (CAnd (CByte OGe 33) (CByte OLe 126)) (KGoto (LSt 131) KNil) KNil (KGoto (LSt 0) KNil)));
  (* builder.go:2369 st131 *) ((LSt 131), (KInc (KIf CPe (KGoto (LEofN 131) KNil) KNil KNil)));
  (* builder.go:2373 stCase131 *) ((LCase 131), (KIf (CAnd (CByte OGe 33) (CByte OLe 126)) (KGoto (LSt 132) KNil) KNil (KGoto (LSt 0) KNil)));
  (* builder.go:2378 st132 *) ((LSt 132), (KInc (KIf CPe (KGoto (LEofN 132) KNil) KNil KNil)))
].

(* /repo/rfc5424/builder.go *)
Definition progBuilder_4 : list (label * code act cnd) := [
  (* builder.go:2382 stCase132 *) ((LCase 132), (KIf (CAnd (CByte OGe 33) (CByte OLe 126)) (KGoto (LSt 133) KNil) KNil (KGoto (LSt 0) KNil)));
  (* builder.go:2387 st133 *) ((LSt 133), (KInc (KIf CPe (KGoto (LEofN 133) KNil) KNil KNil)));
  (* builder.go:2391 stCase133 *) ((LCase 133), (KIf (CAnd (CByte OGe 33) (CByte OLe 126)) (KGoto (LSt 134) KNil) KNil (KGoto (LSt 0) KNil)));
  (* builder.go:2396 st134 *) ((LSt 134), (KInc (KIf CPe (KGoto (LEofN 134) KNil) KNil KNil)));
  (* builder.go:2400 stCase134 *) ((LCase 134), (KIf (CAnd (CByte OGe 33) (CByte OLe 126)) (KGoto (LSt 135) KNil) KNil (KGoto (LSt 0) KNil)));
  (* builder.go:2405 st135 *) ((LSt 135), (KInc (KIf CPe (KGoto (LEofN 135) KNil) KNil KNil)));
  (* builder.go:2409 stCase135 *) ((LCase 135), (KIf (CAnd (CByte OGe 33) (CByte OLe 126)) (KGoto (LSt 136) KNil) KNil (KGoto (LSt 0) KNil)));
  (* builder.go:2414 st136 *) ((LSt 136), (KInc (KIf CPe (KGoto (LEofN 136) KNil) KNil KNil)));
  (* builder.go:2418 stCase136 *) ((LCase 136), (KIf (CAnd (CByte OGe 33) (CByte OLe 126)) (KGoto (LSt 137) KNil) KNil (KGoto (LSt 0) KNil)));
  (* builder.go:2423 st137 *) ((LSt 137), (KInc (KIf CPe (KGoto (LEofN 137) KNil) KNil KNil)));
  (* builder.go:2427 stCase137 *) ((LCase 137), (KIf (CAnd (CByte OGe 33) (CByte OLe 126)) (KGoto (LSt 138) KNil) KNil (KGoto (LSt 0) KNil)));
  (* builder.go:2432 st138 *) ((LSt 138), (KInc (KIf CPe (KGoto (LEofN 138) KNil) KNil KNil)));
  (* builder.go:2436 stCase138 *) ((LCase 138), (KIf (CAnd (CByte OGe 33) (CByte OLe 126)) (KGoto (LSt 139) KNil) KNil (KGoto (LSt 0) KNil)));
  (* builder.go:2441 st139 *) ((LSt 139), (KInc (KIf CPe (KGoto (LEofN 139) KNil) KNil KNil)));
  (* builder.go:2445 stCase139 *) ((LCase 139), (KIf (CAnd (CByte OGe 33) (CByte OLe 126)) (KGoto (LSt 140) KNil) KNil (KGoto (LSt 0) KNil)));
  (* builder.go:2450 st140 *) ((LSt 140), (KInc (KIf CPe (KGoto (LEofN 140) KNil) KNil KNil)));
  (* builder.go:2454 stCase140 *) ((LCase 140), (KIf (CAnd (CByte OGe 33) (CByte OLe 126)) (KGoto (LSt 141) KNil) KNil (KGoto (LSt 0) KNil)));
  (* builder.go:2459 st141 *) ((LSt 141), (KInc (KIf CPe (KGoto (LEofN 141) KNil) KNil KNil)));
  (* builder.go:2463 stCase141 *) ((LCase 141), (KIf (CAnd (CByte OGe 33) (CByte OLe 126)) (KGoto (LSt 142) KNil) KNil (KGoto (LSt 0) KNil)));
  (* builder.go:2468 st142 *) ((LSt 142), (KInc (KIf CPe (KGoto (LEofN 142) KNil) KNil KNil)));
  (* builder.go:2472 stCase142 *) ((LCase 142), (KIf (CAnd (CByte OGe 33) (CByte OLe 126)) (KGoto (LSt 143) KNil) KNil (KGoto (LSt 0) KNil)));
  (* builder.go:2477 st143 *) ((LSt 143), (KInc (KIf CPe (KGoto (LEofN 143) KNil) KNil KNil)));
  (* builder.go:2481 stCase143 *) ((LCase 143), (KIf (CAnd (CByte OGe 33) (CByte OLe 126)) (KGoto (LSt 144) KNil) KNil (KGoto (LSt 0) KNil)));
  (* builder.go:2486 st144 *) ((LSt 144), (KInc (KIf CPe (KGoto (LEofN 144) KNil) KNil KNil)));
  (* builder.go:2490 stCase144 *) ((LCase 144), (KIf (CAnd (CByte OGe 33) (CByte OLe 126)) (KGoto (LSt 145) KNil) KNil (KGoto (LSt 0) KNil)));
  (* builder.go:2495 st145 *) ((LSt 145), (KInc (KIf CPe (KGoto (LEofN 145) KNil) KNil KNil)));
  (* builder.go:2499 stCase145 *) ((LCase 145), (KIf (CAnd (CByte OGe 33) (CByte OLe 126)) (KGoto (LSt 146) KNil) KNil (KGoto (LSt 0) KNil)));
  (* builder.go:2504 st146 *) ((LSt 146), (KInc (KIf CPe (KGoto (LEofN 146) KNil) KNil KNil)));
  (* builder.go:2508 stCase146 *) ((LCase 146), (KIf (CAnd (CByte OGe 33) (CByte OLe 126)) (KGoto (LSt 147) KNil) KNil (KGoto (LSt 0) KNil)));
  (* builder.go:2513 st147 *) ((LSt 147), (KInc (KIf CPe (KGoto (LEofN 147) KNil) KNil KNil)));
  (* builder.go:2517 stCase147 *) ((LCase 147), (KIf (CAnd (CByte OGe 33) (CByte OLe 126)) (KGoto (LSt 148) KNil) KNil (KGoto (LSt 0) KNil)));
  (* builder.go:2522 st148 *) ((LSt 148), (KInc (KIf CPe (KGoto (LEofN 148) KNil) KNil KNil)));
  (* builder.go:2526 stCase148 *) ((LCase 148), (KIf (CAnd (CByte OGe 33) (CByte OLe 126)) (KGoto (LSt 149) KNil) KNil (KGoto (LSt 0) KNil)));
  (* builder.go:2531 st149 *) ((LSt 149), (KInc (KIf CPe (KGoto (LEofN 149) KNil) KNil KNil)));
  (* builder.go:2535 stCase149 *) ((LCase 149), (KIf (CAnd (CByte OGe 33) (CByte OLe 126)) (KGoto (LSt 150) KNil) KNil (KGoto (LSt 0) KNil)));
  (* builder.go:2540 st150 *) ((LSt 150), (KInc (KIf CPe (KGoto (LEofN 150) KNil) KNil KNil)));
  (* builder.go:2544 stCase150 *) ((LCase 150), (KIf (CAnd (CByte OGe 33) (CByte OLe 126)) (KGoto (LSt 151) KNil) KNil (KGoto (LSt 0) KNil)));
  (* builder.go:2549 st151 *) ((LSt 151), (KInc (KIf CPe (KGoto (LEofN 151) KNil) KNil KNil)));
  (* builder.go:2553 stCase151 *) ((LCase 151), (KIf (CAnd (CByte OGe 33) (CByte OLe 126)) (KGoto (LSt 152) KNil) KNil (KGoto (LSt 0) KNil)));
  (* builder.go:2558 st152 *) ((LSt 152), (KInc (KIf CPe (KGoto (LEofN 152) KNil) KNil KNil)));
  (* builder.go:2562 stCase152 *) ((LCase 152), (KIf (CAnd (CByte OGe 33) (CByte OLe 126)) (KGoto (LSt 153) KNil) KNil (KGoto (LSt 0) KNil)));
  (* builder.go:2567 st153 *) ((LSt 153), (KInc (KIf CPe (KGoto (LEofN 153) KNil) KNil KNil)));
  (* builder.go:2571 stCase153 *) ((LCase 153), (KIf (CAnd (CByte OGe 33) (CByte OLe 126)) (KGoto (LSt 154) KNil) KNil (KGoto (LSt 0) KNil)));
  (* builder.go:2576 st154 *) ((LSt 154), (KInc (KIf CPe (KGoto (LEofN 154) KNil) KNil KNil)));
  (* builder.go:2580 stCase154 *) ((LCase 154), (KIf (CAnd (CByte OGe 33) (CByte OLe 126)) (KGoto (LSt 155) KNil) KNil (KGoto (LSt 0) KNil)));
  (* builder.go:2585 st155 *) ((LSt 155), (KInc (KIf CPe (KGoto (LEofN 155) KNil) KNil KNil)));
  (* builder.go:2589 stCase155 *) ((LCase 155), (KIf (CAnd (CByte OGe 33) (CByte OLe 126)) (KGoto (LSt 156) KNil) KNil (KGoto (LSt 0) KNil)));
  (* builder.go:2594 st156 *) ((LSt 156), (KInc (KIf CPe (KGoto (LEofN 156) KNil) KNil KNil)));
  (* builder.go:2598 stCase156 *) ((LCase 156), (KIf (CAnd (CByte OGe 33) (CByte OLe 126)) (KGoto (LSt 157) KNil) KNil (KGoto (LSt 0) KNil)));
  (* builder.go:2603 st157 *) ((LSt 157), (KInc (KIf CPe (KGoto (LEofN 157) KNil) KNil KNil)));
  (* builder.go:2607 stCase157 *) ((LCase 157), (KIf (CAnd (CByte OGe 33) (CByte OLe 126)) (KGoto (LSt 158) KNil) KNil (KGoto (LSt 0) KNil)));
  (* builder.go:2612 st158 *) ((LSt 158), (KInc (KIf CPe (KGoto (LEofN 158) KNil) KNil KNil)));
  (* builder.go:2616 stCase158 *) ((LCase 158), (KIf (CAnd (CByte OGe 33) (CByte OLe 126)) (KGoto (LSt 159) KNil) KNil (KGoto (LSt 0) KNil)));
  (* builder.go:2621 st159 *) ((LSt 159), (KInc (KIf CPe (KGoto (LEofN 159) KNil) KNil KNil)));
  (* builder.go:2625 stCase159 *) ((LCase 159), (KIf (CAnd (CByte OGe 33) (CByte OLe 126)) (KGoto (LSt 160) KNil) KNil (KGoto (LSt 0) KNil)));
  (* builder.go:2630 st160 *) ((LSt 160), (KInc (KIf CPe (KGoto (LEofN 160) KNil) KNil KNil)));
  (* builder.go:2634 stCase160 *) ((LCase 160), (KIf (CAnd (CByte OGe 33) (CByte OLe 126)) (KGoto (LSt 161) KNil) KNil (KGoto (LSt 0) KNil)));
  (* builder.go:2639 st161 *) ((LSt 161), (KInc (KIf CPe (KGoto (LEofN 161) KNil) KNil KNil)));
  (* builder.go:2643 stCase161 *) ((LCase 161), (KIf (CAnd (CByte OGe 33) (CByte OLe 126)) (KGoto (LSt 162) KNil) KNil (KGoto (LSt 0) KNil)));
  (* builder.go:2648 st162 *) ((LSt 162), (KInc (KIf CPe (KGoto (LEofN 162) KNil) KNil KNil)))
].

(* /repo/rfc5424/builder.go *)
Definition progBuilder_5 : list (label * code act cnd) := [
  (* builder.go:2652 stCase162 *) ((LCase 162), (KIf (CAnd (CByte OGe 33) (CByte OLe 126)) (KGoto (LSt 163) KNil) KNil (KGoto (LSt 0) KNil)));
  (* builder.go:2657 st163 *) ((LSt 163), (KInc (KIf CPe (KGoto (LEofN 163) KNil) KNil KNil)));
  (* builder.go:2661 stCase163 *) ((LCase 163), (KIf (CAnd (CByte OGe 33) (CByte OLe 126)) (KGoto (LSt 164) KNil) KNil (KGoto (LSt 0) KNil)));
  (* builder.go:2666 st164 *) ((LSt 164), (KInc (KIf CPe (KGoto (LEofN 164) KNil) KNil KNil)));
  (* builder.go:2670 stCase164 *) ((LCase 164), (KIf (CAnd (CByte OGe 33) (CByte OLe 126)) (KGoto (LSt 165) KNil) KNil (KGoto (LSt 0) KNil)));
  (* builder.go:2675 st165 *) ((LSt 165), (KInc (KIf CPe (KGoto (LEofN 165) KNil) KNil KNil)));
  (* builder.go:2679 stCase165 *) ((LCase 165), (KIf (CAnd (CByte OGe 33) (CByte OLe 126)) (KGoto (LSt 166) KNil) KNil (KGoto (LSt 0) KNil)));
  (* builder.go:2684 st166 *) ((LSt 166), (KInc (KIf CPe (KGoto (LEofN 166) KNil) KNil KNil)));
  (* builder.go:2688 stCase166 *) ((LCase 166), (KIf (CAnd (CByte OGe 33) (CByte OLe 126)) (KGoto (LSt 167) KNil) KNil (KGoto (LSt 0) KNil)));
  (* builder.go:2693 st167 *) ((LSt 167), (KInc (KIf CPe (KGoto (LEofN 167) KNil) KNil KNil)));
  (* builder.go:2697 stCase167 *) ((LCase 167), (KIf (CAnd (CByte OGe 33) (CByte OLe 126)) (KGoto (LSt 168) KNil) KNil (KGoto (LSt 0) KNil)));
  (* builder.go:2702 st168 *) ((LSt 168), (KInc (KIf CPe (KGoto (LEofN 168) KNil) KNil KNil)));
  (* builder.go:2706 stCase168 *) ((LCase 168), (KIf (CAnd (CByte OGe 33) (CByte OLe 126)) (KGoto (LSt 169) KNil) KNil (KGoto (LSt 0) KNil)));
  (* builder.go:2711 st169 *) ((LSt 169), (KInc (KIf CPe (KGoto (LEofN 169) KNil) KNil KNil)));
  (* builder.go:2715 stCase169 *) ((LCase 169), (KIf (CAnd (CByte OGe 33) (CByte OLe 126)) (KGoto (LSt 170) KNil) KNil (KGoto (LSt 0) KNil)));
  (* builder.go:2720 st170 *) ((LSt 170), (KInc (KIf CPe (KGoto (LEofN 170) KNil) KNil KNil)));
  (* builder.go:2724 stCase170 *) ((LCase 170), (KIf (CAnd (CByte OGe 33) (CByte OLe 126)) (KGoto (LSt 171) KNil) KNil (KGoto (LSt 0) KNil)));
  (* builder.go:2729 st171 *) ((LSt 171), (KInc (KIf CPe (KGoto (LEofN 171) KNil) KNil KNil)));
  (* builder.go:2733 stCase171 *) ((LCase 171), (KIf (CAnd (CByte OGe 33) (CByte OLe 126)) (KGoto (LSt 172) KNil) KNil (KGoto (LSt 0) KNil)));
  (* builder.go:2738 st172 *) ((LSt 172), (KInc (KIf CPe (KGoto (LEofN 172) KNil) KNil KNil)));
  (* builder.go:2742 stCase172 *) ((LCase 172), (KIf (CAnd (CByte OGe 33) (CByte OLe 126)) (KGoto (LSt 173) KNil) KNil (KGoto (LSt 0) KNil)));
  (* builder.go:2747 st173 *) ((LSt 173), (KInc (KIf CPe (KGoto (LEofN 173) KNil) KNil KNil)));
  (* builder.go:2751 stCase173 *) ((LCase 173), (KIf (CAnd (CByte OGe 33) (CByte OLe 126)) (KGoto (LSt 174) KNil) KNil (KGoto (LSt 0) KNil)));
  (* builder.go:2756 st174 *) ((LSt 174), (KInc (KIf CPe (KGoto (LEofN 174) KNil) KNil KNil)));
  (* builder.go:2760 stCase174 *) ((LCase 174), (KIf (CAnd (CByte OGe 33) (CByte OLe 126)) (KGoto (LSt 175) KNil) KNil (KGoto (LSt 0) KNil)));
  (* builder.go:2765 st175 *) ((LSt 175), (KInc (KIf CPe (KGoto (LEofN 175) KNil) KNil KNil)));
  (* builder.go:2769 stCase175 *) ((LCase 175), (KIf (CAnd (CByte OGe 33) (CByte OLe 126)) (KGoto (LSt 176) KNil) KNil (KGoto (LSt 0) KNil)));
  (* builder.go:2774 st176 *) ((LSt 176), (KInc (KIf CPe (KGoto (LEofN 176) KNil) KNil KNil)));
  (* builder.go:2778 stCase176 *) ((LCase 176), (KIf (CAnd (CByte OGe 33) (CByte OLe 126)) (KGoto (LSt 177) KNil) KNil (KGoto (LSt 0) KNil)));
  (* builder.go:2783 st177 *) ((LSt 177), (KInc (KIf CPe (KGoto (LEofN 177) KNil) KNil KNil)));
  (* builder.go:2787 stCase177 *) ((LCase 177), (KIf (CAnd (CByte OGe 33) (CByte OLe 126)) (KGoto (LSt 178) KNil) KNil (KGoto (LSt 0) KNil)));
  (* builder.go:2792 st178 *) ((LSt 178), (KInc (KIf CPe (KGoto (LEofN 178) KNil) KNil KNil)));
  (* builder.go:2796 stCase178 *) ((LCase 178), (KIf (CAnd (CByte OGe 33) (CByte OLe 126)) (KGoto (LSt 179) KNil) KNil (KGoto (LSt 0) KNil)));
  (* builder.go:2801 st179 *) ((LSt 179), (KInc (KIf CPe (KGoto (LEofN 179) KNil) KNil KNil)));
  (* builder.go:2805 stCase179 *) ((LCase 179), (KIf (CAnd (CByte OGe 33) (CByte OLe 126)) (KGoto (LSt 180) KNil) KNil (KGoto (LSt 0) KNil)));
  (* builder.go:2810 st180 *) ((LSt 180), (KInc (KIf CPe (KGoto (LEofN 180) KNil) KNil KNil)));
  (* builder.go:2814 stCase180 *) ((LCase 180), (KIf (CAnd (CByte OGe 33) (CByte OLe 126)) (KGoto (LSt 181) KNil) KNil (KGoto (LSt 0) KNil)));
  (* builder.go:2819 st181 *) ((LSt 181), (KInc (KIf CPe (KGoto (LEofN 181) KNil) KNil KNil)));
  (* builder.go:2823 stCase181 *) ((LCase 181), (KIf (CAnd (CByte OGe 33) (CByte OLe 126)) (KGoto (LSt 182) KNil) KNil (KGoto (LSt 0) KNil)));
  (* builder.go:2828 st182 *) ((LSt 182), (KInc (KIf CPe (KGoto (LEofN 182) KNil) KNil KNil)));
  (* builder.go:2832 stCase182 *) ((LCase 182), (KIf (CAnd (CByte OGe 33) (CByte OLe 126)) (KGoto (LSt 183) KNil) KNil (KGoto (LSt 0) KNil)));
  (* builder.go:2837 st183 *) ((LSt 183), (KInc (KIf CPe (KGoto (LEofN 183) KNil) KNil KNil)));
  (* builder.go:2841 stCase183 *) ((LCase 183), (KIf (CAnd (CByte OGe 33) (CByte OLe 126)) (KGoto (LSt 184) KNil) KNil (KGoto (LSt 0) KNil)));
  (* builder.go:2846 st184 *) ((LSt 184), (KInc (KIf CPe (KGoto (LEofN 184) KNil) KNil KNil)));
  (* builder.go:2850 stCase184 *) ((LCase 184), (KIf (CAnd (CByte OGe 33) (CByte OLe 126)) (KGoto (LSt 185) KNil) KNil (KGoto (LSt 0) KNil)));
  (* builder.go:2855 st185 *) ((LSt 185), (KInc (KIf CPe (KGoto (LEofN 185) KNil) KNil KNil)));
  (* builder.go:2859 stCase185 *) ((LCase 185), (KIf (CAnd (CByte OGe 33) (CByte OLe 126)) (KGoto (LSt 186) KNil) KNil (KGoto (LSt 0) KNil)));
  (* builder.go:2864 st186 *) ((LSt 186), (KInc (KIf CPe (KGoto (LEofN 186) KNil) KNil KNil)));
  (* builder.go:2868 stCase186 *) ((LCase 186), (KIf (CAnd (CByte OGe 33) (CByte OLe 126)) (KGoto (LSt 187) KNil) KNil (KGoto (LSt 0) KNil)));
  (* builder.go:2873 st187 *) ((LSt 187), (KInc (KIf CPe (KGoto (LEofN 187) KNil) KNil KNil)));
  (* builder.go:2877 stCase187 *) ((LCase 187), (KIf (CAnd (CByte OGe 33) (CByte OLe 126)) (KGoto (LSt 188) KNil) KNil (KGoto (LSt 0) KNil)));
  (* builder.go:2882 st188 *) ((LSt 188), (KInc (KIf CPe (KGoto (LEofN 188) KNil) KNil KNil)));
  (* builder.go:2886 stCase188 *) ((LCase 188), (KIf (CAnd (CByte OGe 33) (CByte OLe 126)) (KGoto (LSt 189) KNil) KNil (KGoto (LSt 0) KNil)));
  (* builder.go:2891 st189 *) ((LSt 189), (KInc (KIf CPe (KGoto (LEofN 189) KNil) KNil KNil)));
  (* builder.go:2895 stCase189 *) ((LCase 189), (KIf (CAnd (CByte OGe 33) (CByte OLe 126)) (KGoto (LSt 190) KNil) KNil (KGoto (LSt 0) KNil)));
  (* builder.go:2900 st190 *) ((LSt 190), (KInc (KIf CPe (KGoto (LEofN 190) KNil) KNil KNil)));
  (* builder.go:2904 stCase190 *) ((LCase 190), (KIf (CAnd (CByte OGe 33) (CByte OLe 126)) (KGoto (LSt 191) KNil) KNil (KGoto (LSt 0) KNil)));
  (* builder.go:2909 st191 *) ((LSt 191), (KInc (KIf CPe (KGoto (LEofN 191) KNil) KNil KNil)));
  (* builder.go:2913 stCase191 *) ((LCase 191), (KIf (CAnd (CByte OGe 33) (CByte OLe 126)) (KGoto (LSt 192) KNil) KNil (KGoto (LSt 0) KNil)));
  (* builder.go:2918 st192 *) ((LSt 192), (KInc (KIf CPe (KGoto (LEofN 192) KNil) KNil KNil)))
].

(* /repo/rfc5424/builder.go *)
Definition progBuilder_6 : list (label * code act cnd) := [
  (* builder.go:2922 stCase192 *) ((LCase 192), (KIf (CAnd (CByte OGe 33) (CByte OLe 126)) (KGoto (LSt 193) KNil) KNil (KGoto (LSt 0) KNil)));
  (* builder.go:2927 st193 *) ((LSt 193), (KInc (KIf CPe (KGoto (LEofN 193) KNil) KNil KNil)));
  (* builder.go:2931 stCase193 *) ((LCase 193), (KIf (CAnd (CByte OGe 33) (CByte OLe 126)) (KGoto (LSt 194) KNil) KNil (KGoto (LSt 0) KNil)));
  (* builder.go:2936 st194 *) ((LSt 194), (KInc (KIf CPe (KGoto (LEofN 194) KNil) KNil KNil)));
  (* builder.go:2940 stCase194 *) ((LCase 194), (KIf (CAnd (CByte OGe 33) (CByte OLe 126)) (KGoto (LSt 195) KNil) KNil (KGoto (LSt 0) KNil)));
  (* builder.go:2945 st195 *) ((LSt 195), (KInc (KIf CPe (KGoto (LEofN 195) KNil) KNil KNil)));
  (* builder.go:2949 stCase195 *) ((LCase 195), (KIf (CAnd (CByte OGe 33) (CByte OLe 126)) (KGoto (LSt 196) KNil) KNil (KGoto (LSt 0) KNil)));
  (* builder.go:2954 st196 *) ((LSt 196), (KInc (KIf CPe (KGoto (LEofN 196) KNil) KNil KNil)));
  (* builder.go:2958 stCase196 *) ((LCase 196), (KIf (CAnd (CByte OGe 33) (CByte OLe 126)) (KGoto (LSt 197) KNil) KNil (KGoto (LSt 0) KNil)));
  (* builder.go:2963 st197 *) ((LSt 197), (KInc (KIf CPe (KGoto (LEofN 197) KNil) KNil KNil)));
  (* builder.go:2967 stCase197 *) ((LCase 197), (KIf (CAnd (CByte OGe 33) (CByte OLe 126)) (KGoto (LSt 198) KNil) KNil (KGoto (LSt 0) KNil)));
  (* builder.go:2972 st198 *) ((LSt 198), (KInc (KIf CPe (KGoto (LEofN 198) KNil) KNil KNil)));
  (* builder.go:2976 stCase198 *) ((LCase 198), (KIf (CAnd (CByte OGe 33) (CByte OLe 126)) (KGoto (LSt 199) KNil) KNil (KGoto (LSt 0) KNil)));
  (* builder.go:2981 st199 *) ((LSt 199), (KInc (KIf CPe (KGoto (LEofN 199) KNil) KNil KNil)));
  (* builder.go:2985 stCase199 *) ((LCase 199), (KIf (CAnd (CByte OGe 33) (CByte OLe 126)) (KGoto (LSt 200) KNil) KNil (KGoto (LSt 0) KNil)));
  (* builder.go:2990 st200 *) ((LSt 200), (KInc (KIf CPe (KGoto (LEofN 200) KNil) KNil KNil)));
  (* builder.go:2994 stCase200 *) ((LCase 200), (KIf (CAnd (CByte OGe 33) (CByte OLe 126)) (KGoto (LSt 201) KNil) KNil (KGoto (LSt 0) KNil)));
  (* builder.go:2999 st201 *) ((LSt 201), (KInc (KIf CPe (KGoto (LEofN 201) KNil) KNil KNil)));
  (* builder.go:3003 stCase201 *) ((LCase 201), (KIf (CAnd (CByte OGe 33) (CByte OLe 126)) (KGoto (LSt 202) KNil) KNil (KGoto (LSt 0) KNil)));
  (* builder.go:3008 st202 *) ((LSt 202), (KInc (KIf CPe (KGoto (LEofN 202) KNil) KNil KNil)));
  (* builder.go:3012 stCase202 *) ((LCase 202), (KIf (CAnd (CByte OGe 33) (CByte OLe 126)) (KGoto (LSt 203) KNil) KNil (KGoto (LSt 0) KNil)));
  (* builder.go:3017 st203 *) ((LSt 203), (KInc (KIf CPe (KGoto (LEofN 203) KNil) KNil KNil)));
  (* builder.go:3021 stCase203 *) ((LCase 203), (KIf (CAnd (CByte OGe 33) (CByte OLe 126)) (KGoto (LSt 204) KNil) KNil (KGoto (LSt 0) KNil)));
  (* builder.go:3026 st204 *) ((LSt 204), (KInc (KIf CPe (KGoto (LEofN 204) KNil) KNil KNil)));
  (* builder.go:3030 stCase204 *) ((LCase 204), (KIf (CAnd (CByte OGe 33) (CByte OLe 126)) (KGoto (LSt 205) KNil) KNil (KGoto (LSt 0) KNil)));
  (* builder.go:3035 st205 *) ((LSt 205), (KInc (KIf CPe (KGoto (LEofN 205) KNil) KNil KNil)));
  (* builder.go:3039 stCase205 *) ((LCase 205), (KIf (CAnd (CByte OGe 33) (CByte OLe 126)) (KGoto (LSt 206) KNil) KNil (KGoto (LSt 0) KNil)));
  (* builder.go:3044 st206 *) ((LSt 206), (KInc (KIf CPe (KGoto (LEofN 206) KNil) KNil KNil)));
  (* builder.go:3048 stCase206 *) ((LCase 206), (KIf (CAnd (CByte OGe 33) (CByte OLe 126)) (KGoto (LSt 207) KNil) KNil (KGoto (LSt 0) KNil)));
  (* builder.go:3053 st207 *) ((LSt 207), (KInc (KIf CPe (KGoto (LEofN 207) KNil) KNil KNil)));
  (* builder.go:3057 stCase207 *) ((LCase 207), (KIf (CAnd (CByte OGe 33) (CByte OLe 126)) (KGoto (LSt 208) KNil) KNil (KGoto (LSt 0) KNil)));
  (* builder.go:3062 st208 *) ((LSt 208), (KInc (KIf CPe (KGoto (LEofN 208) KNil) KNil KNil)));
  (* builder.go:3066 stCase208 *) ((LCase 208), (KIf (CAnd (CByte OGe 33) (CByte OLe 126)) (KGoto (LSt 209) KNil) KNil (KGoto (LSt 0) KNil)));
  (* builder.go:3071 st209 *) ((LSt 209), (KInc (KIf CPe (KGoto (LEofN 209) KNil) KNil KNil)));
  (* builder.go:3075 stCase209 *) ((LCase 209), (KIf (CAnd (CByte OGe 33) (CByte OLe 126)) (KGoto (LSt 210) KNil) KNil (KGoto (LSt 0) KNil)));
  (* builder.go:3080 st210 *) ((LSt 210), (KInc (KIf CPe (KGoto (LEofN 210) KNil) KNil KNil)));
  (* builder.go:3084 stCase210 *) ((LCase 210), (KIf (CAnd (CByte OGe 33) (CByte OLe 126)) (KGoto (LSt 211) KNil) KNil (KGoto (LSt 0) KNil)));
  (* builder.go:3089 st211 *) ((LSt 211), (KInc (KIf CPe (KGoto (LEofN 211) KNil) KNil KNil)));
  (* builder.go:3093 stCase211 *) ((LCase 211), (KIf (CAnd (CByte OGe 33) (CByte OLe 126)) (KGoto (LSt 212) KNil) KNil (KGoto (LSt 0) KNil)));
  (* builder.go:3098 st212 *) ((LSt 212), (KInc (KIf CPe (KGoto (LEofN 212) KNil) KNil KNil)));
  (* builder.go:3102 stCase212 *) ((LCase 212), (KIf (CAnd (CByte OGe 33) (CByte OLe 126)) (KGoto (LSt 213) KNil) KNil (KGoto (LSt 0) KNil)));
  (* builder.go:3107 st213 *) ((LSt 213), (KInc (KIf CPe (KGoto (LEofN 213) KNil) KNil KNil)));
  (* builder.go:3111 stCase213 *) ((LCase 213), (KIf (CAnd (CByte OGe 33) (CByte OLe 126)) (KGoto (LSt 214) KNil) KNil (KGoto (LSt 0) KNil)));
  (* builder.go:3116 st214 *) ((LSt 214), (KInc (KIf CPe (KGoto (LEofN 214) KNil) KNil KNil)));
  (* builder.go:3120 stCase214 *) ((LCase 214), (KIf (CAnd (CByte OGe 33) (CByte OLe 126)) (KGoto (LSt 215) KNil) KNil (KGoto (LSt 0) KNil)));
  (* builder.go:3125 st215 *) ((LSt 215), (KInc (KIf CPe (KGoto (LEofN 215) KNil) KNil KNil)));
  (* builder.go:3129 stCase215 *) ((LCase 215), (KIf (CAnd (CByte OGe 33) (CByte OLe 126)) (KGoto (LSt 216) KNil) KNil (KGoto (LSt 0) KNil)));
  (* builder.go:3134 st216 *) ((LSt 216), (KInc (KIf CPe (KGoto (LEofN 216) KNil) KNil KNil)));
  (* builder.go:3138 stCase216 *) ((LCase 216), (KIf (CAnd (CByte OGe 33) (CByte OLe 126)) (KGoto (LSt 217) KNil) KNil (KGoto (LSt 0) KNil)));
  (* builder.go:3143 st217 *) ((LSt 217), (KInc (KIf CPe (KGoto (LEofN 217) KNil) KNil KNil)));
  (* builder.go:3147 stCase217 *) ((LCase 217), (KIf (CAnd (CByte OGe 33) (CByte OLe 126)) (KGoto (LSt 218) KNil) KNil (KGoto (LSt 0) KNil)));
  (* builder.go:3152 st218 *) ((LSt 218), (KInc (KIf CPe (KGoto (LEofN 218) KNil) KNil KNil)));
  (* builder.go:3156 stCase218 *) ((LCase 218), (KIf (CAnd (CByte OGe 33) (CByte OLe 126)) (KGoto (LSt 219) KNil) KNil (KGoto (LSt 0) KNil)));
  (* builder.go:3161 st219 *) ((LSt 219), (KInc (KIf CPe (KGoto (LEofN 219) KNil) KNil KNil)));
  (* builder.go:3165 stCase219 *) ((LCase 219), (KIf (CAnd (CByte OGe 33) (CByte OLe 126)) (KGoto (LSt 220) KNil) KNil (KGoto (LSt 0) KNil)));
  (* builder.go:3170 st220 *) ((LSt 220), (KInc (KIf CPe (KGoto (LEofN 220) KNil) KNil KNil)));
  (* builder.go:3174 stCase220 *) ((LCase 220), (KIf (CAnd (CByte OGe 33) (CByte OLe 126)) (KGoto (LSt 221) KNil) KNil (KGoto (LSt 0) KNil)));
  (* builder.go:3179 st221 *) ((LSt 221), (KInc (KIf CPe (KGoto (LEofN 221) KNil) KNil KNil)));
  (* builder.go:3183 stCase221 *) ((LCase 221), (KIf (CAnd (CByte OGe 33) (CByte OLe 126)) (KGoto (LSt 222) KNil) KNil (KGoto (LSt 0) KNil)));
  (* builder.go:3188 st222 *) ((LSt 222), (KInc (KIf CPe (KGoto (LEofN 222) KNil) KNil KNil)))
].

(* /repo/rfc5424/builder.go *)
Definition progBuilder_7 : list (label * code act cnd) := [
  (* builder.go:3192 stCase222 *) ((LCase 222), (KIf (CAnd (CByte OGe 33) (CByte OLe 126)) (KGoto (LSt 223) KNil) KNil (KGoto (LSt 0) KNil)));
  (* builder.go:3197 st223 *) ((LSt 223), (KInc (KIf CPe (KGoto (LEofN 223) KNil) KNil KNil)));
  (* builder.go:3201 stCase223 *) ((LCase 223), (KIf (CAnd (CByte OGe 33) (CByte OLe 126)) (KGoto (LSt 224) KNil) KNil (KGoto (LSt 0) KNil)));
  (* builder.go:3206 st224 *) ((LSt 224), (KInc (KIf CPe (KGoto (LEofN 224) KNil) KNil KNil)));
  (* builder.go:3210 stCase224 *) ((LCase 224), (KIf (CAnd (CByte OGe 33) (CByte OLe 126)) (KGoto (LSt 225) KNil) KNil (KGoto (LSt 0) KNil)));
  (* builder.go:3215 st225 *) ((LSt 225), (KInc (KIf CPe (KGoto (LEofN 225) KNil) KNil KNil)));
  (* builder.go:3219 stCase225 *) ((LCase 225), (KIf (CAnd (CByte OGe 33) (CByte OLe 126)) (KGoto (LSt 226) KNil) KNil (KGoto (LSt 0) KNil)));
  (* builder.go:3224 st226 *) ((LSt 226), (KInc (KIf CPe (KGoto (LEofN 226) KNil) KNil KNil)));
  (* builder.go:3228 stCase226 *) ((LCase 226), (KIf (CAnd (CByte OGe 33) (CByte OLe 126)) (KGoto (LSt 227) KNil) KNil (KGoto (LSt 0) KNil)));
  (* builder.go:3233 st227 *) ((LSt 227), (KInc (KIf CPe (KGoto (LEofN 227) KNil) KNil KNil)));
  (* builder.go:3237 stCase227 *) ((LCase 227), (KIf (CAnd (CByte OGe 33) (CByte OLe 126)) (KGoto (LSt 228) KNil) KNil (KGoto (LSt 0) KNil)));
  (* builder.go:3242 st228 *) ((LSt 228), (KInc (KIf CPe (KGoto (LEofN 228) KNil) KNil KNil)));
  (* builder.go:3246 stCase228 *) ((LCase 228), (KIf (CAnd (CByte OGe 33) (CByte OLe 126)) (KGoto (LSt 229) KNil) KNil (KGoto (LSt 0) KNil)));
  (* builder.go:3251 st229 *) ((LSt 229), (KInc (KIf CPe (KGoto (LEofN 229) KNil) KNil KNil)));
  (* builder.go:3255 stCase229 *) ((LCase 229), (KIf (CAnd (CByte OGe 33) (CByte OLe 126)) (KGoto (LSt 230) KNil) KNil (KGoto (LSt 0) KNil)));
  (* builder.go:3260 st230 *) ((LSt 230), (KInc (KIf CPe (KGoto (LEofN 230) KNil) KNil KNil)));
  (* builder.go:3264 stCase230 *) ((LCase 230), (KIf (CAnd (CByte OGe 33) (CByte OLe 126)) (KGoto (LSt 231) KNil) KNil (KGoto (LSt 0) KNil)));
  (* builder.go:3269 st231 *) ((LSt 231), (KInc (KIf CPe (KGoto (LEofN 231) KNil) KNil KNil)));
  (* builder.go:3273 stCase231 *) ((LCase 231), (KIf (CAnd (CByte OGe 33) (CByte OLe 126)) (KGoto (LSt 232) KNil) KNil (KGoto (LSt 0) KNil)));
  (* builder.go:3278 st232 *) ((LSt 232), (KInc (KIf CPe (KGoto (LEofN 232) KNil) KNil KNil)));
  (* builder.go:3282 stCase232 *) ((LCase 232), (KIf (CAnd (CByte OGe 33) (CByte OLe 126)) (KGoto (LSt 233) KNil) KNil (KGoto (LSt 0) KNil)));
  (* builder.go:3287 st233 *) ((LSt 233), (KInc (KIf CPe (KGoto (LEofN 233) KNil) KNil KNil)));
  (* builder.go:3291 stCase233 *) ((LCase 233), (KIf (CAnd (CByte OGe 33) (CByte OLe 126)) (KGoto (LSt 234) KNil) KNil (KGoto (LSt 0) KNil)));
  (* builder.go:3296 st234 *) ((LSt 234), (KInc (KIf CPe (KGoto (LEofN 234) KNil) KNil KNil)));
  (* builder.go:3300 stCase234 *) ((LCase 234), (KIf (CAnd (CByte OGe 33) (CByte OLe 126)) (KGoto (LSt 235) KNil) KNil (KGoto (LSt 0) KNil)));
  (* builder.go:3305 st235 *) ((LSt 235), (KInc (KIf CPe (KGoto (LEofN 235) KNil) KNil KNil)));
  (* builder.go:3309 stCase235 *) ((LCase 235), (KIf (CAnd (CByte OGe 33) (CByte OLe 126)) (KGoto (LSt 236) KNil) KNil (KGoto (LSt 0) KNil)));
  (* builder.go:3314 st236 *) ((LSt 236), (KInc (KIf CPe (KGoto (LEofN 236) KNil) KNil KNil)));
  (* builder.go:3318 stCase236 *) ((LCase 236), (KIf (CAnd (CByte OGe 33) (CByte OLe 126)) (KGoto (LSt 237) KNil) KNil (KGoto (LSt 0) KNil)));
  (* builder.go:3323 st237 *) ((LSt 237), (KInc (KIf CPe (KGoto (LEofN 237) KNil) KNil KNil)));
  (* builder.go:3327 stCase237 *) ((LCase 237), (KIf (CAnd (CByte OGe 33) (CByte OLe 126)) (KGoto (LSt 238) KNil) KNil (KGoto (LSt 0) KNil)));
  (* builder.go:3332 st238 *) ((LSt 238), (KInc (KIf CPe (KGoto (LEofN 238) KNil) KNil KNil)));
  (* builder.go:3336 stCase238 *) ((LCase 238), (KIf (CAnd (CByte OGe 33) (CByte OLe 126)) (KGoto (LSt 239) KNil) KNil (KGoto (LSt 0) KNil)));
  (* builder.go:3341 st239 *) ((LSt 239), (KInc (KIf CPe (KGoto (LEofN 239) KNil) KNil KNil)));
  (* builder.go:3345 stCase239 *) ((LCase 239), (KIf (CAnd (CByte OGe 33) (CByte OLe 126)) (KGoto (LSt 240) KNil) KNil (KGoto (LSt 0) KNil)));
  (* builder.go:3350 st240 *) ((LSt 240), (KInc (KIf CPe (KGoto (LEofN 240) KNil) KNil KNil)));
  (* builder.go:3354 stCase240 *) ((LCase 240), (KIf (CAnd (CByte OGe 33) (CByte OLe 126)) (KGoto (LSt 241) KNil) KNil (KGoto (LSt 0) KNil)));
  (* builder.go:3359 st241 *) ((LSt 241), (KInc (KIf CPe (KGoto (LEofN 241) KNil) KNil KNil)));
  (* builder.go:3363 stCase241 *) ((LCase 241), (KIf (CAnd (CByte OGe 33) (CByte OLe 126)) (KGoto (LSt 242) KNil) KNil (KGoto (LSt 0) KNil)));
  (* builder.go:3368 st242 *) ((LSt 242), (KInc (KIf CPe (KGoto (LEofN 242) KNil) KNil KNil)));
  (* builder.go:3372 stCase242 *) ((LCase 242), (KIf (CAnd (CByte OGe 33) (CByte OLe 126)) (KGoto (LSt 243) KNil) KNil (KGoto (LSt 0) KNil)));
  (* builder.go:3377 st243 *) ((LSt 243), (KInc (KIf CPe (KGoto (LEofN 243) KNil) KNil KNil)));
  (* builder.go:3381 stCase243 *) ((LCase 243), (KIf (CAnd (CByte OGe 33) (CByte OLe 126)) (KGoto (LSt 244) KNil) KNil (KGoto (LSt 0) KNil)));
  (* builder.go:3386 st244 *) ((LSt 244), (KInc (KIf CPe (KGoto (LEofN 244) KNil) KNil KNil)));
  (* builder.go:3390 stCase244 *) ((LCase 244), (KIf (CAnd (CByte OGe 33) (CByte OLe 126)) (KGoto (LSt 245) KNil) KNil (KGoto (LSt 0) KNil)));
  (* builder.go:3395 st245 *) ((LSt 245), (KInc (KIf CPe (KGoto (LEofN 245) KNil) KNil KNil)));
  (* builder.go:3399 stCase245 *) ((LCase 245), (KIf (CAnd (CByte OGe 33) (CByte OLe 126)) (KGoto (LSt 246) KNil) KNil (KGoto (LSt 0) KNil)));
  (* builder.go:3404 st246 *) ((LSt 246), (KInc (KIf CPe (KGoto (LEofN 246) KNil) KNil KNil)));
  (* builder.go:3408 stCase246 *) ((LCase 246), (KIf (CAnd (CByte OGe 33) (CByte OLe 126)) (KGoto (LSt 247) KNil) KNil (KGoto (LSt 0) KNil)));
  (* builder.go:3413 st247 *) ((LSt 247), (KInc (KIf CPe (KGoto (LEofN 247) KNil) KNil KNil)));
  (* builder.go:3417 stCase247 *) ((LCase 247), (KIf (CAnd (CByte OGe 33) (CByte OLe 126)) (KGoto (LSt 248) KNil) KNil (KGoto (LSt 0) KNil)));
  (* builder.go:3422 st248 *) ((LSt 248), (KInc (KIf CPe (KGoto (LEofN 248) KNil) KNil KNil)));
  (* builder.go:3426 stCase248 *) ((LCase 248), (KIf (CAnd (CByte OGe 33) (CByte OLe 126)) (KGoto (LSt 249) KNil) KNil (KGoto (LSt 0) KNil)));
  (* builder.go:3431 st249 *) ((LSt 249), (KInc (KIf CPe (KGoto (LEofN 249) KNil) KNil KNil)));
  (* builder.go:3435 stCase249 *) ((LCase 249), (KIf (CAnd (CByte OGe 33) (CByte OLe 126)) (KGoto (LSt 250) KNil) KNil (KGoto (LSt 0) KNil)));
  (* builder.go:3440 st250 *) ((LSt 250), (KInc (KIf CPe (KGoto (LEofN 250) KNil) KNil KNil)));
  (* builder.go:3444 stCase250 *) ((LCase 250), (KIf (CAnd (CByte OGe 33) (CByte OLe 126)) (KGoto (LSt 251) KNil) KNil (KGoto (LSt 0) KNil)));
  (* builder.go:3449 st251 *) ((LSt 251), (KInc (KIf CPe (KGoto (LEofN 251) KNil) KNil KNil)));
  (* builder.go:3453 stCase251 *) ((LCase 251), (KIf (CAnd (CByte OGe 33) (CByte OLe 126)) (KGoto (LSt 252) KNil) KNil (KGoto (LSt 0) KNil)));
  (* builder.go:3458 st252 *) ((LSt 252), (KInc (KIf CPe (KGoto (LEofN 252) KNil) KNil KNil)))
].

(* /repo/rfc5424/builder.go *)
Definition progBuilder_8 : list (label * code act cnd) := [
  (* builder.go:3462 stCase252 *) ((LCase 252), (KIf (CAnd (CByte OGe 33) (CByte OLe 126)) (KGoto (LSt 253) KNil) KNil (KGoto (LSt 0) KNil)));
  (* builder.go:3467 st253 *) ((LSt 253), (KInc (KIf CPe (KGoto (LEofN 253) KNil) KNil KNil)));
  (* builder.go:3471 stCase253 *) ((LCase 253), (KIf (CAnd (CByte OGe 33) (CByte OLe 126)) (KGoto (LSt 254) KNil) KNil (KGoto (LSt 0) KNil)));
  (* builder.go:3476 st254 *) ((LSt 254), (KInc (KIf CPe (KGoto (LEofN 254) KNil) KNil KNil)));
  (* builder.go:3480 stCase254 *) ((LCase 254), (KIf (CAnd (CByte OGe 33) (CByte OLe 126)) (KGoto (LSt 255) KNil) KNil (KGoto (LSt 0) KNil)));
  (* builder.go:3485 st255 *) ((LSt 255), (KInc (KIf CPe (KGoto (LEofN 255) KNil) KNil KNil)));
  (* builder.go:3489 stCase255 *) ((LCase 255), (KIf (CAnd (CByte OGe 33) (CByte OLe 126)) (KGoto (LSt 256) KNil) KNil (KGoto (LSt 0) KNil)));
  (* builder.go:3494 st256 *) ((LSt 256), (KInc (KIf CPe (KGoto (LEofN 256) KNil) KNil KNil)));
  (* builder.go:3498 stCase256 *) ((LCase 256), (KIf (CAnd (CByte OGe 33) (CByte OLe 126)) (KGoto (LSt 257) KNil) KNil (KGoto (LSt 0) KNil)));
  (* builder.go:3503 st257 *) ((LSt 257), (KInc (KIf CPe (KGoto (LEofN 257) KNil) KNil KNil)));
  (* builder.go:3507 stCase257 *) ((LCase 257), (KIf (CAnd (CByte OGe 33) (CByte OLe 126)) (KGoto (LSt 258) KNil) KNil (KGoto (LSt 0) KNil)));
  (* builder.go:3512 st258 *) ((LSt 258), (KInc (KIf CPe (KGoto (LEofN 258) KNil) KNil KNil)));
  (* builder.go:3516 stCase258 *) ((LCase 258), (KIf (CAnd (CByte OGe 33) (CByte OLe 126)) (KGoto (LSt 259) KNil) KNil (KGoto (LSt 0) KNil)));
  (* builder.go:3521 st259 *) ((LSt 259), (KInc (KIf CPe (KGoto (LEofN 259) KNil) KNil KNil)));
  (* builder.go:3525 stCase259 *) ((LCase 259), (KIf (CAnd (CByte OGe 33) (CByte OLe 126)) (KGoto (LSt 260) KNil) KNil (KGoto (LSt 0) KNil)));
  (* builder.go:3530 st260 *) ((LSt 260), (KInc (KIf CPe (KGoto (LEofN 260) KNil) KNil KNil)));
  (* builder.go:3534 stCase260 *) ((LCase 260), (KIf (CAnd (CByte OGe 33) (CByte OLe 126)) (KGoto (LSt 261) KNil) KNil (KGoto (LSt 0) KNil)));
  (* builder.go:3539 st261 *) ((LSt 261), (KInc (KIf CPe (KGoto (LEofN 261) KNil) KNil KNil)));
  (* builder.go:3543 stCase261 *) ((LCase 261), (KIf (CAnd (CByte OGe 33) (CByte OLe 126)) (KGoto (LSt 262) KNil) KNil (KGoto (LSt 0) KNil)));
  (* builder.go:3548 st262 *) ((LSt 262), (KInc (KIf CPe (KGoto (LEofN 262) KNil) KNil KNil)));
  (* builder.go:3552 stCase262 *) ((LCase 262), (KIf (CAnd (CByte OGe 33) (CByte OLe 126)) (KGoto (LSt 263) KNil) KNil (KGoto (LSt 0) KNil)));
  (* builder.go:3557 st263 *) ((LSt 263), (KInc (KIf CPe (KGoto (LEofN 263) KNil) KNil KNil)));
  (* builder.go:3561 stCase263 *) ((LCase 263), (KIf (CAnd (CByte OGe 33) (CByte OLe 126)) (KGoto (LSt 264) KNil) KNil (KGoto (LSt 0) KNil)));
  (* builder.go:3566 st264 *) ((LSt 264), (KInc (KIf CPe (KGoto (LEofN 264) KNil) KNil KNil)));
  (* builder.go:3570 stCase264 *) ((LCase 264), (KIf (CAnd (CByte OGe 33) (CByte OLe 126)) (KGoto (LSt 265) KNil) KNil (KGoto (LSt 0) KNil)));
  (* builder.go:3575 st265 *) ((LSt 265), (KInc (KIf CPe (KGoto (LEofN 265) KNil) KNil KNil)));
  (* builder.go:3579 stCase265 *) ((LCase 265), (KIf (CAnd (CByte OGe 33) (CByte OLe 126)) (KGoto (LSt 266) KNil) KNil (KGoto (LSt 0) KNil)));
  (* builder.go:3584 st266 *) ((LSt 266), (KInc (KIf CPe (KGoto (LEofN 266) KNil) KNil KNil)));
  (* builder.go:3588 stCase266 *) ((LCase 266), (KIf (CAnd (CByte OGe 33) (CByte OLe 126)) (KGoto (LSt 267) KNil) KNil (KGoto (LSt 0) KNil)));
  (* builder.go:3593 st267 *) ((LSt 267), (KInc (KIf CPe (KGoto (LEofN 267) KNil) KNil KNil)));
  (* builder.go:3597 stCase267 *) ((LCase 267), (KIf (CAnd (CByte OGe 33) (CByte OLe 126)) (KGoto (LSt 268) KNil) KNil (KGoto (LSt 0) KNil)));
  (* builder.go:3602 st268 *) ((LSt 268), (KInc (KIf CPe (KGoto (LEofN 268) KNil) KNil KNil)));
  (* builder.go:3606 stCase268 *) ((LCase 268), (KIf (CAnd (CByte OGe 33) (CByte OLe 126)) (KGoto (LSt 269) KNil) KNil (KGoto (LSt 0) KNil)));
  (* builder.go:3611 st269 *) ((LSt 269), (KInc (KIf CPe (KGoto (LEofN 269) KNil) KNil KNil)));
  (* builder.go:3615 stCase269 *) ((LCase 269), (KIf (CAnd (CByte OGe 33) (CByte OLe 126)) (KGoto (LSt 270) KNil) KNil (KGoto (LSt 0) KNil)));
  (* builder.go:3620 st270 *) ((LSt 270), (KInc (KIf CPe (KGoto (LEofN 270) KNil) KNil KNil)));
  (* builder.go:3624 stCase270 *) ((LCase 270), (KIf (CAnd (CByte OGe 33) (CByte OLe 126)) (KGoto (LSt 271) KNil) KNil (KGoto (LSt 0) KNil)));
  (* builder.go:3629 st271 *) ((LSt 271), (KInc (KIf CPe (KGoto (LEofN 271) KNil) KNil KNil)));
  (* builder.go:3633 stCase271 *) ((LCase 271), (KIf (CAnd (CByte OGe 33) (CByte OLe 126)) (KGoto (LSt 272) KNil) KNil (KGoto (LSt 0) KNil)));
  (* builder.go:3638 st272 *) ((LSt 272), (KInc (KIf CPe (KGoto (LEofN 272) KNil) KNil KNil)));
  (* builder.go:3642 stCase272 *) ((LCase 272), (KIf (CAnd (CByte OGe 33) (CByte OLe 126)) (KGoto (LSt 273) KNil) KNil (KGoto (LSt 0) KNil)));
  (* builder.go:3647 st273 *) ((LSt 273), (KInc (KIf CPe (KGoto (LEofN 273) KNil) KNil KNil)));
  (* builder.go:3651 stCase273 *) ((LCase 273), (KIf (CAnd (CByte OGe 33) (CByte OLe 126)) (KGoto (LSt 274) KNil) KNil (KGoto (LSt 0) KNil)));
  (* builder.go:3656 st274 *) ((LSt 274), (KInc (KIf CPe (KGoto (LEofN 274) KNil) KNil KNil)));
  (* builder.go:3660 stCase274 *) ((LCase 274), (KIf (CAnd (CByte OGe 33) (CByte OLe 126)) (KGoto (LSt 275) KNil) KNil (KGoto (LSt 0) KNil)));
  (* builder.go:3665 st275 *) ((LSt 275), (KInc (KIf CPe (KGoto (LEofN 275) KNil) KNil KNil)));
  (* builder.go:3669 stCase275 *) ((LCase 275), (KIf (CAnd (CByte OGe 33) (CByte OLe 126)) (KGoto (LSt 276) KNil) KNil (KGoto (LSt 0) KNil)));
  (* builder.go:3674 st276 *) ((LSt 276), (KInc (KIf CPe (KGoto (LEofN 276) KNil) KNil KNil)));
  (* builder.go:3678 stCase276 *) ((LCase 276), (KIf (CAnd (CByte OGe 33) (CByte OLe 126)) (KGoto (LSt 277) KNil) KNil (KGoto (LSt 0) KNil)));
  (* builder.go:3683 st277 *) ((LSt 277), (KInc (KIf CPe (KGoto (LEofN 277) KNil) KNil KNil)));
  (* builder.go:3687 stCase277 *) ((LCase 277), (KIf (CAnd (CByte OGe 33) (CByte OLe 126)) (KGoto (LSt 278) KNil) KNil (KGoto (LSt 0) KNil)));
  (* builder.go:3692 st278 *) ((LSt 278), (KInc (KIf CPe (KGoto (LEofN 278) KNil) KNil KNil)));
  (* builder.go:3696 stCase278 *) ((LCase 278), (KIf (CAnd (CByte OGe 33) (CByte OLe 126)) (KGoto (LSt 279) KNil) KNil (KGoto (LSt 0) KNil)));
  (* builder.go:3701 st279 *) ((LSt 279), (KInc (KIf CPe (KGoto (LEofN 279) KNil) KNil KNil)));
  (* builder.go:3705 stCase279 *) ((LCase 279), (KIf (CAnd (CByte OGe 33) (CByte OLe 126)) (KGoto (LSt 280) KNil) KNil (KGoto (LSt 0) KNil)));
  (* builder.go:3710 st280 *) ((LSt 280), (KInc (KIf CPe (KGoto (LEofN 280) KNil) KNil KNil)));
  (* builder.go:3714 stCase280 *) ((LCase 280), (KIf (CAnd (CByte OGe 33) (CByte OLe 126)) (KGoto (LSt 281) KNil) KNil (KGoto (LSt 0) KNil)));
  (* builder.go:3719 st281 *) ((LSt 281), (KInc (KIf CPe (KGoto (LEofN 281) KNil) KNil KNil)));
  (* builder.go:3723 stCase281 *) ((LCase 281), (KIf (CAnd (CByte OGe 33) (CByte OLe 126)) (KGoto (LSt 282) KNil) KNil (KGoto (LSt 0) KNil)));
  (* builder.go:3728 st282 *) ((LSt 282), (KInc (KIf CPe (KGoto (LEofN 282) KNil) KNil KNil)))
].

(* /repo/rfc5424/builder.go *)
Definition progBuilder_9 : list (label * code act cnd) := [
  (* builder.go:3732 stCase282 *) ((LCase 282), (KIf (CAnd (CByte OGe 33) (CByte OLe 126)) (KGoto (LSt 283) KNil) KNil (KGoto (LSt 0) KNil)));
  (* builder.go:3737 st283 *) ((LSt 283), (KInc (KIf CPe (KGoto (LEofN 283) KNil) KNil KNil)));
  (* builder.go:3741 stCase283 *) ((LCase 283), (KIf (CAnd (CByte OGe 33) (CByte OLe 126)) (KGoto (LSt 284) KNil) KNil (KGoto (LSt 0) KNil)));
  (* builder.go:3746 st284 *) ((LSt 284), (KInc (KIf CPe (KGoto (LEofN 284) KNil) KNil KNil)));
  (* builder.go:3750 stCase284 *) ((LCase 284), (KIf (CAnd (CByte OGe 33) (CByte OLe 126)) (KGoto (LSt 285) KNil) KNil (KGoto (LSt 0) KNil)));
  (* builder.go:3755 st285 *) ((LSt 285), (KInc (KIf CPe (KGoto (LEofN 285) KNil) KNil KNil)));
  (* builder.go:3759 stCase285 *) ((LCase 285), (KIf (CAnd (CByte OGe 33) (CByte OLe 126)) (KGoto (LSt 286) KNil) KNil (KGoto (LSt 0) KNil)));
  (* builder.go:3764 st286 *) ((LSt 286), (KInc (KIf CPe (KGoto (LEofN 286) KNil) KNil KNil)));
  (* builder.go:3768 stCase286 *) ((LCase 286), (KIf (CAnd (CByte OGe 33) (CByte OLe 126)) (KGoto (LSt 287) KNil) KNil (KGoto (LSt 0) KNil)));
  (* builder.go:3773 st287 *) ((LSt 287), (KInc (KIf CPe (KGoto (LEofN 287) KNil) KNil KNil)));
  (* builder.go:3777 stCase287 *) ((LCase 287), (KIf (CAnd (CByte OGe 33) (CByte OLe 126)) (KGoto (LSt 288) KNil) KNil (KGoto (LSt 0) KNil)));
  (* builder.go:3782 st288 *) ((LSt 288), (KInc (KIf CPe (KGoto (LEofN 288) KNil) KNil KNil)));
  (* builder.go:3786 stCase288 *) ((LCase 288), (KIf (CAnd (CByte OGe 33) (CByte OLe 126)) (KGoto (LSt 289) KNil) KNil (KGoto (LSt 0) KNil)));
  (* builder.go:3791 st289 *) ((LSt 289), (KInc (KIf CPe (KGoto (LEofN 289) KNil) KNil KNil)));
  (* builder.go:3795 stCase289 *) ((LCase 289), (KIf (CAnd (CByte OGe 33) (CByte OLe 126)) (KGoto (LSt 290) KNil) KNil (KGoto (LSt 0) KNil)));
  (* builder.go:3800 st290 *) ((LSt 290), (KInc (KIf CPe (KGoto (LEofN 290) KNil) KNil KNil)));
  (* builder.go:3804 stCase290 *) ((LCase 290), (KIf (CAnd (CByte OGe 33) (CByte OLe 126)) (KGoto (LSt 291) KNil) KNil (KGoto (LSt 0) KNil)));
  (* builder.go:3809 st291 *) ((LSt 291), (KInc (KIf CPe (KGoto (LEofN 291) KNil) KNil KNil)));
  (* builder.go:3813 stCase291 *) ((LCase 291), (KIf (CAnd (CByte OGe 33) (CByte OLe 126)) (KGoto (LSt 292) KNil) KNil (KGoto (LSt 0) KNil)));
  (* builder.go:3818 st292 *) ((LSt 292), (KInc (KIf CPe (KGoto (LEofN 292) KNil) KNil KNil)));
  (* builder.go:3822 stCase292 *) ((LCase 292), (KIf (CAnd (CByte OGe 33) (CByte OLe 126)) (KGoto (LSt 293) KNil) KNil (KGoto (LSt 0) KNil)));
  (* builder.go:3827 st293 *) ((LSt 293), (KInc (KIf CPe (KGoto (LEofN 293) KNil) KNil KNil)));
  (* builder.go:3831 stCase293 *) ((LCase 293), (KIf (CAnd (CByte OGe 33) (CByte OLe 126)) (KGoto (LSt 294) KNil) KNil (KGoto (LSt 0) KNil)));
  (* builder.go:3836 st294 *) ((LSt 294), (KInc (KIf CPe (KGoto (LEofN 294) KNil) KNil KNil)));
  (* builder.go:3840 stCase294 *) ((LCase 294), (KIf (CAnd (CByte OGe 33) (CByte OLe 126)) (KGoto (LSt 295) KNil) KNil (KGoto (LSt 0) KNil)));
  (* builder.go:3845 st295 *) ((LSt 295), (KInc (KIf CPe (KGoto (LEofN 295) KNil) KNil KNil)));
  (* builder.go:3849 stCase295 *) ((LCase 295), (KIf (CAnd (CByte OGe 33) (CByte OLe 126)) (KGoto (LSt 296) KNil) KNil (KGoto (LSt 0) KNil)));
  (* builder.go:3854 st296 *) ((LSt 296), (KInc (KIf CPe (KGoto (LEofN 296) KNil) KNil KNil)));
  (* builder.go:3858 stCase296 *) ((LCase 296), (KIf (CAnd (CByte OGe 33) (CByte OLe 126)) (KGoto (LSt 297) KNil) KNil (KGoto (LSt 0) KNil)));
  (* builder.go:3863 st297 *) ((LSt 297), (KInc (KIf CPe (KGoto (LEofN 297) KNil) KNil KNil)));
  (* builder.go:3867 stCase297 *) ((LCase 297), (KIf (CAnd (CByte OGe 33) (CByte OLe 126)) (KGoto (LSt 298) KNil) KNil (KGoto (LSt 0) KNil)));
  (* builder.go:3872 st298 *) ((LSt 298), (KInc (KIf CPe (KGoto (LEofN 298) KNil) KNil KNil)));
  (* builder.go:3876 stCase298 *) ((LCase 298), (KIf (CAnd (CByte OGe 33) (CByte OLe 126)) (KGoto (LSt 299) KNil) KNil (KGoto (LSt 0) KNil)));
  (* builder.go:3881 st299 *) ((LSt 299), (KInc (KIf CPe (KGoto (LEofN 299) KNil) KNil KNil)));
  (* builder.go:3885 stCase299 *) ((LCase 299), (KIf (CAnd (CByte OGe 33) (CByte OLe 126)) (KGoto (LSt 300) KNil) KNil (KGoto (LSt 0) KNil)));
  (* builder.go:3890 st300 *) ((LSt 300), (KInc (KIf CPe (KGoto (LEofN 300) KNil) KNil KNil)));
  (* builder.go:3894 stCase300 *) ((LCase 300), (KIf (CAnd (CByte OGe 33) (CByte OLe 126)) (KGoto (LSt 301) KNil) KNil (KGoto (LSt 0) KNil)));
  (* builder.go:3899 st301 *) ((LSt 301), (KInc (KIf CPe (KGoto (LEofN 301) KNil) KNil KNil)));
  (* builder.go:3903 stCase301 *) ((LCase 301), (KIf (CAnd (CByte OGe 33) (CByte OLe 126)) (KGoto (LSt 302) KNil) KNil (KGoto (LSt 0) KNil)));
  (* builder.go:3908 st302 *) ((LSt 302), (KInc (KIf CPe (KGoto (LEofN 302) KNil) KNil KNil)));
  (* builder.go:3912 stCase302 *) ((LCase 302), (KIf (CAnd (CByte OGe 33) (CByte OLe 126)) (KGoto (LSt 303) KNil) KNil (KGoto (LSt 0) KNil)));
  (* builder.go:3917 st303 *) ((LSt 303), (KInc (KIf CPe (KGoto (LEofN 303) KNil) KNil KNil)));
  (* builder.go:3921 stCase303 *) ((LCase 303), (KIf (CAnd (CByte OGe 33) (CByte OLe 126)) (KGoto (LSt 304) KNil) KNil (KGoto (LSt 0) KNil)));
  (* builder.go:3926 st304 *) ((LSt 304), (KInc (KIf CPe (KGoto (LEofN 304) KNil) KNil KNil)));
  (* builder.go:3930 stCase304 *) ((LCase 304), (KIf (CAnd (CByte OGe 33) (CByte OLe 126)) (KGoto (LSt 305) KNil) KNil (KGoto (LSt 0) KNil)));
  (* builder.go:3935 st305 *) ((LSt 305), (KInc (KIf CPe (KGoto (LEofN 305) KNil) KNil KNil)));
  (* builder.go:3939 stCase305 *) ((LCase 305), (KIf (CAnd (CByte OGe 33) (CByte OLe 126)) (KGoto (LSt 306) KNil) KNil (KGoto (LSt 0) KNil)));
  (* builder.go:3944 st306 *) ((LSt 306), (KInc (KIf CPe (KGoto (LEofN 306) KNil) KNil KNil)));
  (* builder.go:3948 stCase306 *) ((LCase 306), (KIf (CAnd (CByte OGe 33) (CByte OLe 126)) (KGoto (LSt 307) KNil) KNil (KGoto (LSt 0) KNil)));
  (* builder.go:3953 st307 *) ((LSt 307), (KInc (KIf CPe (KGoto (LEofN 307) KNil) KNil KNil)));
  (* builder.go:3957 stCase307 *) ((LCase 307), (KIf (CAnd (CByte OGe 33) (CByte OLe 126)) (KGoto (LSt 308) KNil) KNil (KGoto (LSt 0) KNil)));
  (* builder.go:3962 st308 *) ((LSt 308), (KInc (KIf CPe (KGoto (LEofN 308) KNil) KNil KNil)));
  (* builder.go:3966 stCase308 *) ((LCase 308), (KIf (CAnd (CByte OGe 33) (CByte OLe 126)) (KGoto (LSt 309) KNil) KNil (KGoto (LSt 0) KNil)));
  (* builder.go:3971 st309 *) ((LSt 309), (KInc (KIf CPe (KGoto (LEofN 309) KNil) KNil KNil)));
  (* builder.go:3975 stCase309 *) ((LCase 309), (KGoto (LSt 0) KNil));
  (* builder.go:3977 stCase39 *) ((LCase 39), (KIf (CAnd (CByte OGe 33) (CByte OLe 126)) (KGoto (LTr 39) KNil) KNil (KGoto (LSt 0) KNil)));
  (* builder.go:3982 tr39 *) ((LTr 39), (KAct BPb (KGoto (LSt 310) KNil)));
  (* builder.go:3987 st310 *) ((LSt 310), (KInc (KIf CPe (KGoto (LEofN 310) KNil) KNil KNil)));
  (* builder.go:3991 stCase310 *) ((LCase 310), (KIf (CAnd (CByte OGe 33) (CByte OLe 126)) (KGoto (LSt 311) KNil) KNil (KGoto (LSt 0) KNil)));
  (* builder.go:3996 st311 *) ((LSt 311), (KInc (KIf CPe (KGoto (LEofN 311) KNil) KNil KNil)))
].

(* /repo/rfc5424/builder.go *)
Definition progBuilder_10 : list (label * code act cnd) := [
  (* builder.go:4000 stCase311 *) ((LCase 311), (KIf (CAnd (CByte OGe 33) (CByte OLe 126)) (KGoto (LSt 312) KNil) KNil (KGoto (LSt 0) KNil)));
  (* builder.go:4005 st312 *) ((LSt 312), (KInc (KIf CPe (KGoto (LEofN 312) KNil) KNil KNil)));
  (* builder.go:4009 stCase312 *) ((LCase 312), (KIf (CAnd (CByte OGe 33) (CByte OLe 126)) (KGoto (LSt 313) KNil) KNil (KGoto (LSt 0) KNil)));
  (* builder.go:4014 st313 *) ((LSt 313), (KInc (KIf CPe (KGoto (LEofN 313) KNil) KNil KNil)));
  (* builder.go:4018 stCase313 *) ((LCase 313), (KIf (CAnd (CByte OGe 33) (CByte OLe 126)) (KGoto (LSt 314) KNil) KNil (KGoto (LSt 0) KNil)));
  (* builder.go:4023 st314 *) ((LSt 314), (KInc (KIf CPe (KGoto (LEofN 314) KNil) KNil KNil)));
  (* builder.go:4027 stCase314 *) ((LCase 314), (KIf (CAnd (CByte OGe 33) (CByte OLe 126)) (KGoto (LSt 315) KNil) KNil (KGoto (LSt 0) KNil)));
  (* builder.go:4032 st315 *) ((LSt 315), (KInc (KIf CPe (KGoto (LEofN 315) KNil) KNil KNil)));
  (* builder.go:4036 stCase315 *) ((LCase 315), (KIf (CAnd (CByte OGe 33) (CByte OLe 126)) (KGoto (LSt 316) KNil) KNil (KGoto (LSt 0) KNil)));
  (* builder.go:4041 st316 *) ((LSt 316), (KInc (KIf CPe (KGoto (LEofN 316) KNil) KNil KNil)));
  (* builder.go:4045 stCase316 *) ((LCase 316), (KIf (CAnd (CByte OGe 33) (CByte OLe 126)) (KGoto (LSt 317) KNil) KNil (KGoto (LSt 0) KNil)));
  (* builder.go:4050 st317 *) ((LSt 317), (KInc (KIf CPe (KGoto (LEofN 317) KNil) KNil KNil)));
  (* builder.go:4054 stCase317 *) ((LCase 317), (KIf (CAnd (CByte OGe 33) (CByte OLe 126)) (KGoto (LSt 318) KNil) KNil (KGoto (LSt 0) KNil)));
  (* builder.go:4059 st318 *) ((LSt 318), (KInc (KIf CPe (KGoto (LEofN 318) KNil) KNil KNil)));
  (* builder.go:4063 stCase318 *) ((LCase 318), (KIf (CAnd (CByte OGe 33) (CByte OLe 126)) (KGoto (LSt 319) KNil) KNil (KGoto (LSt 0) KNil)));
  (* builder.go:4068 st319 *) ((LSt 319), (KInc (KIf CPe (KGoto (LEofN 319) KNil) KNil KNil)));
  (* builder.go:4072 stCase319 *) ((LCase 319), (KIf (CAnd (CByte OGe 33) (CByte OLe 126)) (KGoto (LSt 320) KNil) KNil (KGoto (LSt 0) KNil)));
  (* builder.go:4077 st320 *) ((LSt 320), (KInc (KIf CPe (KGoto (LEofN 320) KNil) KNil KNil)));
  (* builder.go:4081 stCase320 *) ((LCase 320), (KIf (CAnd (CByte OGe 33) (CByte OLe 126)) (KGoto (LSt 321) KNil) KNil (KGoto (LSt 0) KNil)));
  (* builder.go:4086 st321 *) ((LSt 321), (KInc (KIf CPe (KGoto (LEofN 321) KNil) KNil KNil)));
  (* builder.go:4090 stCase321 *) ((LCase 321), (KIf (CAnd (CByte OGe 33) (CByte OLe 126)) (KGoto (LSt 322) KNil) KNil (KGoto (LSt 0) KNil)));
  (* builder.go:4095 st322 *) ((LSt 322), (KInc (KIf CPe (KGoto (LEofN 322) KNil) KNil KNil)));
  (* builder.go:4099 stCase322 *) ((LCase 322), (KIf (CAnd (CByte OGe 33) (CByte OLe 126)) (KGoto (LSt 323) KNil) KNil (KGoto (LSt 0) KNil)));
  (* builder.go:4104 st323 *) ((LSt 323), (KInc (KIf CPe (KGoto (LEofN 323) KNil) KNil KNil)));
  (* builder.go:4108 stCase323 *) ((LCase 323), (KIf (CAnd (CByte OGe 33) (CByte OLe 126)) (KGoto (LSt 324) KNil) KNil (KGoto (LSt 0) KNil)));
  (* builder.go:4113 st324 *) ((LSt 324), (KInc (KIf CPe (KGoto (LEofN 324) KNil) KNil KNil)));
  (* builder.go:4117 stCase324 *) ((LCase 324), (KIf (CAnd (CByte OGe 33) (CByte OLe 126)) (KGoto (LSt 325) KNil) KNil (KGoto (LSt 0) KNil)));
  (* builder.go:4122 st325 *) ((LSt 325), (KInc (KIf CPe (KGoto (LEofN 325) KNil) KNil KNil)));
  (* builder.go:4126 stCase325 *) ((LCase 325), (KIf (CAnd (CByte OGe 33) (CByte OLe 126)) (KGoto (LSt 326) KNil) KNil (KGoto (LSt 0) KNil)));
  (* builder.go:4131 st326 *) ((LSt 326), (KInc (KIf CPe (KGoto (LEofN 326) KNil) KNil KNil)));
  (* builder.go:4135 stCase326 *) ((LCase 326), (KIf (CAnd (CByte OGe 33) (CByte OLe 126)) (KGoto (LSt 327) KNil) KNil (KGoto (LSt 0) KNil)));
  (* builder.go:4140 st327 *) ((LSt 327), (KInc (KIf CPe (KGoto (LEofN 327) KNil) KNil KNil)));
  (* builder.go:4144 stCase327 *) ((LCase 327), (KIf (CAnd (CByte OGe 33) (CByte OLe 126)) (KGoto (LSt 328) KNil) KNil (KGoto (LSt 0) KNil)));
  (* builder.go:4149 st328 *) ((LSt 328), (KInc (KIf CPe (KGoto (LEofN 328) KNil) KNil KNil)));
  (* builder.go:4153 stCase328 *) ((LCase 328), (KIf (CAnd (CByte OGe 33) (CByte OLe 126)) (KGoto (LSt 329) KNil) KNil (KGoto (LSt 0) KNil)));
  (* builder.go:4158 st329 *) ((LSt 329), (KInc (KIf CPe (KGoto (LEofN 329) KNil) KNil KNil)));
  (* builder.go:4162 stCase329 *) ((LCase 329), (KIf (CAnd (CByte OGe 33) (CByte OLe 126)) (KGoto (LSt 330) KNil) KNil (KGoto (LSt 0) KNil)));
  (* builder.go:4167 st330 *) ((LSt 330), (KInc (KIf CPe (KGoto (LEofN 330) KNil) KNil KNil)));
  (* builder.go:4171 stCase330 *) ((LCase 330), (KIf (CAnd (CByte OGe 33) (CByte OLe 126)) (KGoto (LSt 331) KNil) KNil (KGoto (LSt 0) KNil)));
  (* builder.go:4176 st331 *) ((LSt 331), (KInc (KIf CPe (KGoto (LEofN 331) KNil) KNil KNil)));
  (* builder.go:4180 stCase331 *) ((LCase 331), (KIf (CAnd (CByte OGe 33) (CByte OLe 126)) (KGoto (LSt 332) KNil) KNil (KGoto (LSt 0) KNil)));
  (* builder.go:4185 st332 *) ((LSt 332), (KInc (KIf CPe (KGoto (LEofN 332) KNil) KNil KNil)));
  (* builder.go:4189 stCase332 *) ((LCase 332), (KIf (CAnd (CByte OGe 33) (CByte OLe 126)) (KGoto (LSt 333) KNil) KNil (KGoto (LSt 0) KNil)));
  (* builder.go:4194 st333 *) ((LSt 333), (KInc (KIf CPe (KGoto (LEofN 333) KNil) KNil KNil)));
  (* builder.go:4198 stCase333 *) ((LCase 333), (KIf (CAnd (CByte OGe 33) (CByte OLe 126)) (KGoto (LSt 334) KNil) KNil (KGoto (LSt 0) KNil)));
  (* builder.go:4203 st334 *) ((LSt 334), (KInc (KIf CPe (KGoto (LEofN 334) KNil) KNil KNil)));
  (* builder.go:4207 stCase334 *) ((LCase 334), (KIf (CAnd (CByte OGe 33) (CByte OLe 126)) (KGoto (LSt 335) KNil) KNil (KGoto (LSt 0) KNil)));
  (* builder.go:4212 st335 *) ((LSt 335), (KInc (KIf CPe (KGoto (LEofN 335) KNil) KNil KNil)));
  (* builder.go:4216 stCase335 *) ((LCase 335), (KIf (CAnd (CByte OGe 33) (CByte OLe 126)) (KGoto (LSt 336) KNil) KNil (KGoto (LSt 0) KNil)));
  (* builder.go:4221 st336 *) ((LSt 336), (KInc (KIf CPe (KGoto (LEofN 336) KNil) KNil KNil)));
  (* builder.go:4225 stCase336 *) ((LCase 336), (KIf (CAnd (CByte OGe 33) (CByte OLe 126)) (KGoto (LSt 337) KNil) KNil (KGoto (LSt 0) KNil)));
  (* builder.go:4230 st337 *) ((LSt 337), (KInc (KIf CPe (KGoto (LEofN 337) KNil) KNil KNil)));
  (* builder.go:4234 stCase337 *) ((LCase 337), (KIf (CAnd (CByte OGe 33) (CByte OLe 126)) (KGoto (LSt 338) KNil) KNil (KGoto (LSt 0) KNil)));
  (* builder.go:4239 st338 *) ((LSt 338), (KInc (KIf CPe (KGoto (LEofN 338) KNil) KNil KNil)));
  (* builder.go:4243 stCase338 *) ((LCase 338), (KIf (CAnd (CByte OGe 33) (CByte OLe 126)) (KGoto (LSt 339) KNil) KNil (KGoto (LSt 0) KNil)));
  (* builder.go:4248 st339 *) ((LSt 339), (KInc (KIf CPe (KGoto (LEofN 339) KNil) KNil KNil)));
  (* builder.go:4252 stCase339 *) ((LCase 339), (KIf (CAnd (CByte OGe 33) (CByte OLe 126)) (KGoto (LSt 340) KNil) KNil (KGoto (LSt 0) KNil)));
  (* builder.go:4257 st340 *) ((LSt 340), (KInc (KIf CPe (KGoto (LEofN 340) KNil) KNil KNil)));
  (* builder.go:4261 stCase340 *) ((LCase 340), (KIf (CAnd (CByte OGe 33) (CByte OLe 126)) (KGoto (LSt 341) KNil) KNil (KGoto (LSt 0) KNil)));
  (* builder.go:4266 st341 *) ((LSt 341), (KInc (KIf CPe (KGoto (LEofN 341) KNil) KNil KNil)))
].

(* /repo/rfc5424/builder.go *)
Definition progBuilder_11 : list (label * code act cnd) := [
  (* builder.go:4270 stCase341 *) ((LCase 341), (KIf (CAnd (CByte OGe 33) (CByte OLe 126)) (KGoto (LSt 342) KNil) KNil (KGoto (LSt 0) KNil)));
  (* builder.go:4275 st342 *) ((LSt 342), (KInc (KIf CPe (KGoto (LEofN 342) KNil) KNil KNil)));
  (* builder.go:4279 stCase342 *) ((LCase 342), (KIf (CAnd (CByte OGe 33) (CByte OLe 126)) (KGoto (LSt 343) KNil) KNil (KGoto (LSt 0) KNil)));
  (* builder.go:4284 st343 *) ((LSt 343), (KInc (KIf CPe (KGoto (LEofN 343) KNil) KNil KNil)));
  (* builder.go:4288 stCase343 *) ((LCase 343), (KIf (CAnd (CByte OGe 33) (CByte OLe 126)) (KGoto (LSt 344) KNil) KNil (KGoto (LSt 0) KNil)));
  (* builder.go:4293 st344 *) ((LSt 344), (KInc (KIf CPe (KGoto (LEofN 344) KNil) KNil KNil)));
  (* builder.go:4297 stCase344 *) ((LCase 344), (KIf (CAnd (CByte OGe 33) (CByte OLe 126)) (KGoto (LSt 345) KNil) KNil (KGoto (LSt 0) KNil)));
  (* builder.go:4302 st345 *) ((LSt 345), (KInc (KIf CPe (KGoto (LEofN 345) KNil) KNil KNil)));
  (* builder.go:4306 stCase345 *) ((LCase 345), (KIf (CAnd (CByte OGe 33) (CByte OLe 126)) (KGoto (LSt 346) KNil) KNil (KGoto (LSt 0) KNil)));
  (* builder.go:4311 st346 *) ((LSt 346), (KInc (KIf CPe (KGoto (LEofN 346) KNil) KNil KNil)));
  (* builder.go:4315 stCase346 *) ((LCase 346), (KIf (CAnd (CByte OGe 33) (CByte OLe 126)) (KGoto (LSt 347) KNil) KNil (KGoto (LSt 0) KNil)));
  (* builder.go:4320 st347 *) ((LSt 347), (KInc (KIf CPe (KGoto (LEofN 347) KNil) KNil KNil)));
  (* builder.go:4324 stCase347 *) ((LCase 347), (KIf (CAnd (CByte OGe 33) (CByte OLe 126)) (KGoto (LSt 348) KNil) KNil (KGoto (LSt 0) KNil)));
  (* builder.go:4329 st348 *) ((LSt 348), (KInc (KIf CPe (KGoto (LEofN 348) KNil) KNil KNil)));
  (* builder.go:4333 stCase348 *) ((LCase 348), (KIf (CAnd (CByte OGe 33) (CByte OLe 126)) (KGoto (LSt 349) KNil) KNil (KGoto (LSt 0) KNil)));
  (* builder.go:4338 st349 *) ((LSt 349), (KInc (KIf CPe (KGoto (LEofN 349) KNil) KNil KNil)));
  (* builder.go:4342 stCase349 *) ((LCase 349), (KIf (CAnd (CByte OGe 33) (CByte OLe 126)) (KGoto (LSt 350) KNil) KNil (KGoto (LSt 0) KNil)));
  (* builder.go:4347 st350 *) ((LSt 350), (KInc (KIf CPe (KGoto (LEofN 350) KNil) KNil KNil)));
  (* builder.go:4351 stCase350 *) ((LCase 350), (KIf (CAnd (CByte OGe 33) (CByte OLe 126)) (KGoto (LSt 351) KNil) KNil (KGoto (LSt 0) KNil)));
  (* builder.go:4356 st351 *) ((LSt 351), (KInc (KIf CPe (KGoto (LEofN 351) KNil) KNil KNil)));
  (* builder.go:4360 stCase351 *) ((LCase 351), (KIf (CAnd (CByte OGe 33) (CByte OLe 126)) (KGoto (LSt 352) KNil) KNil (KGoto (LSt 0) KNil)));
  (* builder.go:4365 st352 *) ((LSt 352), (KInc (KIf CPe (KGoto (LEofN 352) KNil) KNil KNil)));
  (* builder.go:4369 stCase352 *) ((LCase 352), (KIf (CAnd (CByte OGe 33) (CByte OLe 126)) (KGoto (LSt 353) KNil) KNil (KGoto (LSt 0) KNil)));
  (* builder.go:4374 st353 *) ((LSt 353), (KInc (KIf CPe (KGoto (LEofN 353) KNil) KNil KNil)));
  (* builder.go:4378 stCase353 *) ((LCase 353), (KIf (CAnd (CByte OGe 33) (CByte OLe 126)) (KGoto (LSt 354) KNil) KNil (KGoto (LSt 0) KNil)));
  (* builder.go:4383 st354 *) ((LSt 354), (KInc (KIf CPe (KGoto (LEofN 354) KNil) KNil KNil)));
  (* builder.go:4387 stCase354 *) ((LCase 354), (KIf (CAnd (CByte OGe 33) (CByte OLe 126)) (KGoto (LSt 355) KNil) KNil (KGoto (LSt 0) KNil)));
  (* builder.go:4392 st355 *) ((LSt 355), (KInc (KIf CPe (KGoto (LEofN 355) KNil) KNil KNil)));
  (* builder.go:4396 stCase355 *) ((LCase 355), (KIf (CAnd (CByte OGe 33) (CByte OLe 126)) (KGoto (LSt 356) KNil) KNil (KGoto (LSt 0) KNil)));
  (* builder.go:4401 st356 *) ((LSt 356), (KInc (KIf CPe (KGoto (LEofN 356) KNil) KNil KNil)));
  (* builder.go:4405 stCase356 *) ((LCase 356), (KIf (CAnd (CByte OGe 33) (CByte OLe 126)) (KGoto (LSt 357) KNil) KNil (KGoto (LSt 0) KNil)));
  (* builder.go:4410 st357 *) ((LSt 357), (KInc (KIf CPe (KGoto (LEofN 357) KNil) KNil KNil)));
  (* builder.go:4414 stCase357 *) ((LCase 357), (KGoto (LSt 0) KNil));
  (* builder.go:4416 stCase40 *) ((LCase 40), (KIf (CAnd (CByte OGe 33) (CByte OLe 126)) (KGoto (LTr 40) KNil) KNil (KGoto (LSt 0) KNil)));
  (* builder.go:4421 tr40 *) ((LTr 40), (KAct BPb (KGoto (LSt 358) KNil)));
  (* builder.go:4426 st358 *) ((LSt 358), (KInc (KIf CPe (KGoto (LEofN 358) KNil) KNil KNil)));
  (* builder.go:4430 stCase358 *) ((LCase 358), (KIf (CAnd (CByte OGe 33) (CByte OLe 126)) (KGoto (LSt 359) KNil) KNil (KGoto (LSt 0) KNil)));
  (* builder.go:4435 st359 *) ((LSt 359), (KInc (KIf CPe (KGoto (LEofN 359) KNil) KNil KNil)));
  (* builder.go:4439 stCase359 *) ((LCase 359), (KIf (CAnd (CByte OGe 33) (CByte OLe 126)) (KGoto (LSt 360) KNil) KNil (KGoto (LSt 0) KNil)));
  (* builder.go:4444 st360 *) ((LSt 360), (KInc (KIf CPe (KGoto (LEofN 360) KNil) KNil KNil)));
  (* builder.go:4448 stCase360 *) ((LCase 360), (KIf (CAnd (CByte OGe 33) (CByte OLe 126)) (KGoto (LSt 361) KNil) KNil (KGoto (LSt 0) KNil)));
  (* builder.go:4453 st361 *) ((LSt 361), (KInc (KIf CPe (KGoto (LEofN 361) KNil) KNil KNil)));
  (* builder.go:4457 stCase361 *) ((LCase 361), (KIf (CAnd (CByte OGe 33) (CByte OLe 126)) (KGoto (LSt 362) KNil) KNil (KGoto (LSt 0) KNil)));
  (* builder.go:4462 st362 *) ((LSt 362), (KInc (KIf CPe (KGoto (LEofN 362) KNil) KNil KNil)));
  (* builder.go:4466 stCase362 *) ((LCase 362), (KIf (CAnd (CByte OGe 33) (CByte OLe 126)) (KGoto (LSt 363) KNil) KNil (KGoto (LSt 0) KNil)));
  (* builder.go:4471 st363 *) ((LSt 363), (KInc (KIf CPe (KGoto (LEofN 363) KNil) KNil KNil)));
  (* builder.go:4475 stCase363 *) ((LCase 363), (KIf (CAnd (CByte OGe 33) (CByte OLe 126)) (KGoto (LSt 364) KNil) KNil (KGoto (LSt 0) KNil)));
  (* builder.go:4480 st364 *) ((LSt 364), (KInc (KIf CPe (KGoto (LEofN 364) KNil) KNil KNil)));
  (* builder.go:4484 stCase364 *) ((LCase 364), (KIf (CAnd (CByte OGe 33) (CByte OLe 126)) (KGoto (LSt 365) KNil) KNil (KGoto (LSt 0) KNil)));
  (* builder.go:4489 st365 *) ((LSt 365), (KInc (KIf CPe (KGoto (LEofN 365) KNil) KNil KNil)));
  (* builder.go:4493 stCase365 *) ((LCase 365), (KIf (CAnd (CByte OGe 33) (CByte OLe 126)) (KGoto (LSt 366) KNil) KNil (KGoto (LSt 0) KNil)));
  (* builder.go:4498 st366 *) ((LSt 366), (KInc (KIf CPe (KGoto (LEofN 366) KNil) KNil KNil)));
  (* builder.go:4502 stCase366 *) ((LCase 366), (KIf (CAnd (CByte OGe 33) (CByte OLe 126)) (KGoto (LSt 367) KNil) KNil (KGoto (LSt 0) KNil)));
  (* builder.go:4507 st367 *) ((LSt 367), (KInc (KIf CPe (KGoto (LEofN 367) KNil) KNil KNil)));
  (* builder.go:4511 stCase367 *) ((LCase 367), (KIf (CAnd (CByte OGe 33) (CByte OLe 126)) (KGoto (LSt 368) KNil) KNil (KGoto (LSt 0) KNil)));
  (* builder.go:4516 st368 *) ((LSt 368), (KInc (KIf CPe (KGoto (LEofN 368) KNil) KNil KNil)));
  (* builder.go:4520 stCase368 *) ((LCase 368), (KIf (CAnd (CByte OGe 33) (CByte OLe 126)) (KGoto (LSt 369) KNil) KNil (KGoto (LSt 0) KNil)));
  (* builder.go:4525 st369 *) ((LSt 369), (KInc (KIf CPe (KGoto (LEofN 369) KNil) KNil KNil)));
  (* builder.go:4529 stCase369 *) ((LCase 369), (KIf (CAnd (CByte OGe 33) (CByte OLe 126)) (KGoto (LSt 370) KNil) KNil (KGoto (LSt 0) KNil)));
  (* builder.go:4534 st370 *) ((LSt 370), (KInc (KIf CPe (KGoto (LEofN 370) KNil) KNil KNil)))
].

(* /repo/rfc5424/builder.go *)
Definition progBuilder_12 : list (label * code act cnd) := [
  (* builder.go:4538 stCase370 *) ((LCase 370), (KIf (CAnd (CByte OGe 33) (CByte OLe 126)) (KGoto (LSt 371) KNil) KNil (KGoto (LSt 0) KNil)));
  (* builder.go:4543 st371 *) ((LSt 371), (KInc (KIf CPe (KGoto (LEofN 371) KNil) KNil KNil)));
  (* builder.go:4547 stCase371 *) ((LCase 371), (KIf (CAnd (CByte OGe 33) (CByte OLe 126)) (KGoto (LSt 372) KNil) KNil (KGoto (LSt 0) KNil)));
  (* builder.go:4552 st372 *) ((LSt 372), (KInc (KIf CPe (KGoto (LEofN 372) KNil) KNil KNil)));
  (* builder.go:4556 stCase372 *) ((LCase 372), (KIf (CAnd (CByte OGe 33) (CByte OLe 126)) (KGoto (LSt 373) KNil) KNil (KGoto (LSt 0) KNil)));
  (* builder.go:4561 st373 *) ((LSt 373), (KInc (KIf CPe (KGoto (LEofN 373) KNil) KNil KNil)));
  (* builder.go:4565 stCase373 *) ((LCase 373), (KIf (CAnd (CByte OGe 33) (CByte OLe 126)) (KGoto (LSt 374) KNil) KNil (KGoto (LSt 0) KNil)));
  (* builder.go:4570 st374 *) ((LSt 374), (KInc (KIf CPe (KGoto (LEofN 374) KNil) KNil KNil)));
  (* builder.go:4574 stCase374 *) ((LCase 374), (KIf (CAnd (CByte OGe 33) (CByte OLe 126)) (KGoto (LSt 375) KNil) KNil (KGoto (LSt 0) KNil)));
  (* builder.go:4579 st375 *) ((LSt 375), (KInc (KIf CPe (KGoto (LEofN 375) KNil) KNil KNil)));
  (* builder.go:4583 stCase375 *) ((LCase 375), (KIf (CAnd (CByte OGe 33) (CByte OLe 126)) (KGoto (LSt 376) KNil) KNil (KGoto (LSt 0) KNil)));
  (* builder.go:4588 st376 *) ((LSt 376), (KInc (KIf CPe (KGoto (LEofN 376) KNil) KNil KNil)));
  (* builder.go:4592 stCase376 *) ((LCase 376), (KIf (CAnd (CByte OGe 33) (CByte OLe 126)) (KGoto (LSt 377) KNil) KNil (KGoto (LSt 0) KNil)));
  (* builder.go:4597 st377 *) ((LSt 377), (KInc (KIf CPe (KGoto (LEofN 377) KNil) KNil KNil)));
  (* builder.go:4601 stCase377 *) ((LCase 377), (KIf (CAnd (CByte OGe 33) (CByte OLe 126)) (KGoto (LSt 378) KNil) KNil (KGoto (LSt 0) KNil)));
  (* builder.go:4606 st378 *) ((LSt 378), (KInc (KIf CPe (KGoto (LEofN 378) KNil) KNil KNil)));
  (* builder.go:4610 stCase378 *) ((LCase 378), (KIf (CAnd (CByte OGe 33) (CByte OLe 126)) (KGoto (LSt 379) KNil) KNil (KGoto (LSt 0) KNil)));
  (* builder.go:4615 st379 *) ((LSt 379), (KInc (KIf CPe (KGoto (LEofN 379) KNil) KNil KNil)));
  (* builder.go:4619 stCase379 *) ((LCase 379), (KIf (CAnd (CByte OGe 33) (CByte OLe 126)) (KGoto (LSt 380) KNil) KNil (KGoto (LSt 0) KNil)));
  (* builder.go:4624 st380 *) ((LSt 380), (KInc (KIf CPe (KGoto (LEofN 380) KNil) KNil KNil)));
  (* builder.go:4628 stCase380 *) ((LCase 380), (KIf (CAnd (CByte OGe 33) (CByte OLe 126)) (KGoto (LSt 381) KNil) KNil (KGoto (LSt 0) KNil)));
  (* builder.go:4633 st381 *) ((LSt 381), (KInc (KIf CPe (KGoto (LEofN 381) KNil) KNil KNil)));
  (* builder.go:4637 stCase381 *) ((LCase 381), (KIf (CAnd (CByte OGe 33) (CByte OLe 126)) (KGoto (LSt 382) KNil) KNil (KGoto (LSt 0) KNil)));
  (* builder.go:4642 st382 *) ((LSt 382), (KInc (KIf CPe (KGoto (LEofN 382) KNil) KNil KNil)));
  (* builder.go:4646 stCase382 *) ((LCase 382), (KIf (CAnd (CByte OGe 33) (CByte OLe 126)) (KGoto (LSt 383) KNil) KNil (KGoto (LSt 0) KNil)));
  (* builder.go:4651 st383 *) ((LSt 383), (KInc (KIf CPe (KGoto (LEofN 383) KNil) KNil KNil)));
  (* builder.go:4655 stCase383 *) ((LCase 383), (KIf (CAnd (CByte OGe 33) (CByte OLe 126)) (KGoto (LSt 384) KNil) KNil (KGoto (LSt 0) KNil)));
  (* builder.go:4660 st384 *) ((LSt 384), (KInc (KIf CPe (KGoto (LEofN 384) KNil) KNil KNil)));
  (* builder.go:4664 stCase384 *) ((LCase 384), (KIf (CAnd (CByte OGe 33) (CByte OLe 126)) (KGoto (LSt 385) KNil) KNil (KGoto (LSt 0) KNil)));
  (* builder.go:4669 st385 *) ((LSt 385), (KInc (KIf CPe (KGoto (LEofN 385) KNil) KNil KNil)));
  (* builder.go:4673 stCase385 *) ((LCase 385), (KIf (CAnd (CByte OGe 33) (CByte OLe 126)) (KGoto (LSt 386) KNil) KNil (KGoto (LSt 0) KNil)));
  (* builder.go:4678 st386 *) ((LSt 386), (KInc (KIf CPe (KGoto (LEofN 386) KNil) KNil KNil)));
  (* builder.go:4682 stCase386 *) ((LCase 386), (KIf (CAnd (CByte OGe 33) (CByte OLe 126)) (KGoto (LSt 387) KNil) KNil (KGoto (LSt 0) KNil)));
  (* builder.go:4687 st387 *) ((LSt 387), (KInc (KIf CPe (KGoto (LEofN 387) KNil) KNil KNil)));
  (* builder.go:4691 stCase387 *) ((LCase 387), (KIf (CAnd (CByte OGe 33) (CByte OLe 126)) (KGoto (LSt 388) KNil) KNil (KGoto (LSt 0) KNil)));
  (* builder.go:4696 st388 *) ((LSt 388), (KInc (KIf CPe (KGoto (LEofN 388) KNil) KNil KNil)));
  (* builder.go:4700 stCase388 *) ((LCase 388), (KIf (CAnd (CByte OGe 33) (CByte OLe 126)) (KGoto (LSt 389) KNil) KNil (KGoto (LSt 0) KNil)));
  (* builder.go:4705 st389 *) ((LSt 389), (KInc (KIf CPe (KGoto (LEofN 389) KNil) KNil KNil)));
  (* builder.go:4709 stCase389 *) ((LCase 389), (KIf (CAnd (CByte OGe 33) (CByte OLe 126)) (KGoto (LSt 390) KNil) KNil (KGoto (LSt 0) KNil)));
  (* builder.go:4714 st390 *) ((LSt 390), (KInc (KIf CPe (KGoto (LEofN 390) KNil) KNil KNil)));
  (* builder.go:4718 stCase390 *) ((LCase 390), (KIf (CAnd (CByte OGe 33) (CByte OLe 126)) (KGoto (LSt 391) KNil) KNil (KGoto (LSt 0) KNil)));
  (* builder.go:4723 st391 *) ((LSt 391), (KInc (KIf CPe (KGoto (LEofN 391) KNil) KNil KNil)));
  (* builder.go:4727 stCase391 *) ((LCase 391), (KIf (CAnd (CByte OGe 33) (CByte OLe 126)) (KGoto (LSt 392) KNil) KNil (KGoto (LSt 0) KNil)));
  (* builder.go:4732 st392 *) ((LSt 392), (KInc (KIf CPe (KGoto (LEofN 392) KNil) KNil KNil)));
  (* builder.go:4736 stCase392 *) ((LCase 392), (KIf (CAnd (CByte OGe 33) (CByte OLe 126)) (KGoto (LSt 393) KNil) KNil (KGoto (LSt 0) KNil)));
  (* builder.go:4741 st393 *) ((LSt 393), (KInc (KIf CPe (KGoto (LEofN 393) KNil) KNil KNil)));
  (* builder.go:4745 stCase393 *) ((LCase 393), (KIf (CAnd (CByte OGe 33) (CByte OLe 126)) (KGoto (LSt 394) KNil) KNil (KGoto (LSt 0) KNil)));
  (* builder.go:4750 st394 *) ((LSt 394), (KInc (KIf CPe (KGoto (LEofN 394) KNil) KNil KNil)));
  (* builder.go:4754 stCase394 *) ((LCase 394), (KIf (CAnd (CByte OGe 33) (CByte OLe 126)) (KGoto (LSt 395) KNil) KNil (KGoto (LSt 0) KNil)));
  (* builder.go:4759 st395 *) ((LSt 395), (KInc (KIf CPe (KGoto (LEofN 395) KNil) KNil KNil)));
  (* builder.go:4763 stCase395 *) ((LCase 395), (KIf (CAnd (CByte OGe 33) (CByte OLe 126)) (KGoto (LSt 396) KNil) KNil (KGoto (LSt 0) KNil)));
  (* builder.go:4768 st396 *) ((LSt 396), (KInc (KIf CPe (KGoto (LEofN 396) KNil) KNil KNil)));
  (* builder.go:4772 stCase396 *) ((LCase 396), (KIf (CAnd (CByte OGe 33) (CByte OLe 126)) (KGoto (LSt 397) KNil) KNil (KGoto (LSt 0) KNil)));
  (* builder.go:4777 st397 *) ((LSt 397), (KInc (KIf CPe (KGoto (LEofN 397) KNil) KNil KNil)));
  (* builder.go:4781 stCase397 *) ((LCase 397), (KIf (CAnd (CByte OGe 33) (CByte OLe 126)) (KGoto (LSt 398) KNil) KNil (KGoto (LSt 0) KNil)));
  (* builder.go:4786 st398 *) ((LSt 398), (KInc (KIf CPe (KGoto (LEofN 398) KNil) KNil KNil)));
  (* builder.go:4790 stCase398 *) ((LCase 398), (KIf (CAnd (CByte OGe 33) (CByte OLe 126)) (KGoto (LSt 399) KNil) KNil (KGoto (LSt 0) KNil)));
  (* builder.go:4795 st399 *) ((LSt 399), (KInc (KIf CPe (KGoto (LEofN 399) KNil) KNil KNil)));
  (* builder.go:4799 stCase399 *) ((LCase 399), (KIf (CAnd (CByte OGe 33) (CByte OLe 126)) (KGoto (LSt 400) KNil) KNil (KGoto (LSt 0) KNil)));
  (* builder.go:4804 st400 *) ((LSt 400), (KInc (KIf CPe (KGoto (LEofN 400) KNil) KNil KNil)))
].

(* /repo/rfc5424/builder.go *)
Definition progBuilder_13 : list (label * code act cnd) := [
  (* builder.go:4808 stCase400 *) ((LCase 400), (KIf (CAnd (CByte OGe 33) (CByte OLe 126)) (KGoto (LSt 401) KNil) KNil (KGoto (LSt 0) KNil)));
  (* builder.go:4813 st401 *) ((LSt 401), (KInc (KIf CPe (KGoto (LEofN 401) KNil) KNil KNil)));
  (* builder.go:4817 stCase401 *) ((LCase 401), (KIf (CAnd (CByte OGe 33) (CByte OLe 126)) (KGoto (LSt 402) KNil) KNil (KGoto (LSt 0) KNil)));
  (* builder.go:4822 st402 *) ((LSt 402), (KInc (KIf CPe (KGoto (LEofN 402) KNil) KNil KNil)));
  (* builder.go:4826 stCase402 *) ((LCase 402), (KIf (CAnd (CByte OGe 33) (CByte OLe 126)) (KGoto (LSt 403) KNil) KNil (KGoto (LSt 0) KNil)));
  (* builder.go:4831 st403 *) ((LSt 403), (KInc (KIf CPe (KGoto (LEofN 403) KNil) KNil KNil)));
  (* builder.go:4835 stCase403 *) ((LCase 403), (KIf (CAnd (CByte OGe 33) (CByte OLe 126)) (KGoto (LSt 404) KNil) KNil (KGoto (LSt 0) KNil)));
  (* builder.go:4840 st404 *) ((LSt 404), (KInc (KIf CPe (KGoto (LEofN 404) KNil) KNil KNil)));
  (* builder.go:4844 stCase404 *) ((LCase 404), (KIf (CAnd (CByte OGe 33) (CByte OLe 126)) (KGoto (LSt 405) KNil) KNil (KGoto (LSt 0) KNil)));
  (* builder.go:4849 st405 *) ((LSt 405), (KInc (KIf CPe (KGoto (LEofN 405) KNil) KNil KNil)));
  (* builder.go:4853 stCase405 *) ((LCase 405), (KIf (CAnd (CByte OGe 33) (CByte OLe 126)) (KGoto (LSt 406) KNil) KNil (KGoto (LSt 0) KNil)));
  (* builder.go:4858 st406 *) ((LSt 406), (KInc (KIf CPe (KGoto (LEofN 406) KNil) KNil KNil)));
  (* builder.go:4862 stCase406 *) ((LCase 406), (KIf (CAnd (CByte OGe 33) (CByte OLe 126)) (KGoto (LSt 407) KNil) KNil (KGoto (LSt 0) KNil)));
  (* builder.go:4867 st407 *) ((LSt 407), (KInc (KIf CPe (KGoto (LEofN 407) KNil) KNil KNil)));
  (* builder.go:4871 stCase407 *) ((LCase 407), (KIf (CAnd (CByte OGe 33) (CByte OLe 126)) (KGoto (LSt 408) KNil) KNil (KGoto (LSt 0) KNil)));
  (* builder.go:4876 st408 *) ((LSt 408), (KInc (KIf CPe (KGoto (LEofN 408) KNil) KNil KNil)));
  (* builder.go:4880 stCase408 *) ((LCase 408), (KIf (CAnd (CByte OGe 33) (CByte OLe 126)) (KGoto (LSt 409) KNil) KNil (KGoto (LSt 0) KNil)));
  (* builder.go:4885 st409 *) ((LSt 409), (KInc (KIf CPe (KGoto (LEofN 409) KNil) KNil KNil)));
  (* builder.go:4889 stCase409 *) ((LCase 409), (KIf (CAnd (CByte OGe 33) (CByte OLe 126)) (KGoto (LSt 410) KNil) KNil (KGoto (LSt 0) KNil)));
  (* builder.go:4894 st410 *) ((LSt 410), (KInc (KIf CPe (KGoto (LEofN 410) KNil) KNil KNil)));
  (* builder.go:4898 stCase410 *) ((LCase 410), (KIf (CAnd (CByte OGe 33) (CByte OLe 126)) (KGoto (LSt 411) KNil) KNil (KGoto (LSt 0) KNil)));
  (* builder.go:4903 st411 *) ((LSt 411), (KInc (KIf CPe (KGoto (LEofN 411) KNil) KNil KNil)));
  (* builder.go:4907 stCase411 *) ((LCase 411), (KIf (CAnd (CByte OGe 33) (CByte OLe 126)) (KGoto (LSt 412) KNil) KNil (KGoto (LSt 0) KNil)));
  (* builder.go:4912 st412 *) ((LSt 412), (KInc (KIf CPe (KGoto (LEofN 412) KNil) KNil KNil)));
  (* builder.go:4916 stCase412 *) ((LCase 412), (KIf (CAnd (CByte OGe 33) (CByte OLe 126)) (KGoto (LSt 413) KNil) KNil (KGoto (LSt 0) KNil)));
  (* builder.go:4921 st413 *) ((LSt 413), (KInc (KIf CPe (KGoto (LEofN 413) KNil) KNil KNil)));
  (* builder.go:4925 stCase413 *) ((LCase 413), (KIf (CAnd (CByte OGe 33) (CByte OLe 126)) (KGoto (LSt 414) KNil) KNil (KGoto (LSt 0) KNil)));
  (* builder.go:4930 st414 *) ((LSt 414), (KInc (KIf CPe (KGoto (LEofN 414) KNil) KNil KNil)));
  (* builder.go:4934 stCase414 *) ((LCase 414), (KIf (CAnd (CByte OGe 33) (CByte OLe 126)) (KGoto (LSt 415) KNil) KNil (KGoto (LSt 0) KNil)));
  (* builder.go:4939 st415 *) ((LSt 415), (KInc (KIf CPe (KGoto (LEofN 415) KNil) KNil KNil)));
  (* builder.go:4943 stCase415 *) ((LCase 415), (KIf (CAnd (CByte OGe 33) (CByte OLe 126)) (KGoto (LSt 416) KNil) KNil (KGoto (LSt 0) KNil)));
  (* builder.go:4948 st416 *) ((LSt 416), (KInc (KIf CPe (KGoto (LEofN 416) KNil) KNil KNil)));
  (* builder.go:4952 stCase416 *) ((LCase 416), (KIf (CAnd (CByte OGe 33) (CByte OLe 126)) (KGoto (LSt 417) KNil) KNil (KGoto (LSt 0) KNil)));
  (* builder.go:4957 st417 *) ((LSt 417), (KInc (KIf CPe (KGoto (LEofN 417) KNil) KNil KNil)));
  (* builder.go:4961 stCase417 *) ((LCase 417), (KIf (CAnd (CByte OGe 33) (CByte OLe 126)) (KGoto (LSt 418) KNil) KNil (KGoto (LSt 0) KNil)));
  (* builder.go:4966 st418 *) ((LSt 418), (KInc (KIf CPe (KGoto (LEofN 418) KNil) KNil KNil)));
  (* builder.go:4970 stCase418 *) ((LCase 418), (KIf (CAnd (CByte OGe 33) (CByte OLe 126)) (KGoto (LSt 419) KNil) KNil (KGoto (LSt 0) KNil)));
  (* builder.go:4975 st419 *) ((LSt 419), (KInc (KIf CPe (KGoto (LEofN 419) KNil) KNil KNil)));
  (* builder.go:4979 stCase419 *) ((LCase 419), (KIf (CAnd (CByte OGe 33) (CByte OLe 126)) (KGoto (LSt 420) KNil) KNil (KGoto (LSt 0) KNil)));
  (* builder.go:4984 st420 *) ((LSt 420), (KInc (KIf CPe (KGoto (LEofN 420) KNil) KNil KNil)));
  (* builder.go:4988 stCase420 *) ((LCase 420), (KIf (CAnd (CByte OGe 33) (CByte OLe 126)) (KGoto (LSt 421) KNil) KNil (KGoto (LSt 0) KNil)));
  (* builder.go:4993 st421 *) ((LSt 421), (KInc (KIf CPe (KGoto (LEofN 421) KNil) KNil KNil)));
  (* builder.go:4997 stCase421 *) ((LCase 421), (KIf (CAnd (CByte OGe 33) (CByte OLe 126)) (KGoto (LSt 422) KNil) KNil (KGoto (LSt 0) KNil)));
  (* builder.go:5002 st422 *) ((LSt 422), (KInc (KIf CPe (KGoto (LEofN 422) KNil) KNil KNil)));
  (* builder.go:5006 stCase422 *) ((LCase 422), (KIf (CAnd (CByte OGe 33) (CByte OLe 126)) (KGoto (LSt 423) KNil) KNil (KGoto (LSt 0) KNil)));
  (* builder.go:5011 st423 *) ((LSt 423), (KInc (KIf CPe (KGoto (LEofN 423) KNil) KNil KNil)));
  (* builder.go:5015 stCase423 *) ((LCase 423), (KIf (CAnd (CByte OGe 33) (CByte OLe 126)) (KGoto (LSt 424) KNil) KNil (KGoto (LSt 0) KNil)));
  (* builder.go:5020 st424 *) ((LSt 424), (KInc (KIf CPe (KGoto (LEofN 424) KNil) KNil KNil)));
  (* builder.go:5024 stCase424 *) ((LCase 424), (KIf (CAnd (CByte OGe 33) (CByte OLe 126)) (KGoto (LSt 425) KNil) KNil (KGoto (LSt 0) KNil)));
  (* builder.go:5029 st425 *) ((LSt 425), (KInc (KIf CPe (KGoto (LEofN 425) KNil) KNil KNil)));
  (* builder.go:5033 stCase425 *) ((LCase 425), (KIf (CAnd (CByte OGe 33) (CByte OLe 126)) (KGoto (LSt 426) KNil) KNil (KGoto (LSt 0) KNil)));
  (* builder.go:5038 st426 *) ((LSt 426), (KInc (KIf CPe (KGoto (LEofN 426) KNil) KNil KNil)));
  (* builder.go:5042 stCase426 *) ((LCase 426), (KIf (CAnd (CByte OGe 33) (CByte OLe 126)) (KGoto (LSt 427) KNil) KNil (KGoto (LSt 0) KNil)));
  (* builder.go:5047 st427 *) ((LSt 427), (KInc (KIf CPe (KGoto (LEofN 427) KNil) KNil KNil)));
  (* builder.go:5051 stCase427 *) ((LCase 427), (KIf (CAnd (CByte OGe 33) (CByte OLe 126)) (KGoto (LSt 428) KNil) KNil (KGoto (LSt 0) KNil)));
  (* builder.go:5056 st428 *) ((LSt 428), (KInc (KIf CPe (KGoto (LEofN 428) KNil) KNil KNil)));
  (* builder.go:5060 stCase428 *) ((LCase 428), (KIf (CAnd (CByte OGe 33) (CByte OLe 126)) (KGoto (LSt 429) KNil) KNil (KGoto (LSt 0) KNil)));
  (* builder.go:5065 st429 *) ((LSt 429), (KInc (KIf CPe (KGoto (LEofN 429) KNil) KNil KNil)));
  (* builder.go:5069 stCase429 *) ((LCase 429), (KIf (CAnd (CByte OGe 33) (CByte OLe 126)) (KGoto (LSt 430) KNil) KNil (KGoto (LSt 0) KNil)));
  (* builder.go:5074 st430 *) ((LSt 430), (KInc (KIf CPe (KGoto (LEofN 430) KNil) KNil KNil)))
].

(* /repo/rfc5424/builder.go *)
Definition progBuilder_14 : list (label * code act cnd) := [
  (* builder.go:5078 stCase430 *) ((LCase 430), (KIf (CAnd (CByte OGe 33) (CByte OLe 126)) (KGoto (LSt 431) KNil) KNil (KGoto (LSt 0) KNil)));
  (* builder.go:5083 st431 *) ((LSt 431), (KInc (KIf CPe (KGoto (LEofN 431) KNil) KNil KNil)));
  (* builder.go:5087 stCase431 *) ((LCase 431), (KIf (CAnd (CByte OGe 33) (CByte OLe 126)) (KGoto (LSt 432) KNil) KNil (KGoto (LSt 0) KNil)));
  (* builder.go:5092 st432 *) ((LSt 432), (KInc (KIf CPe (KGoto (LEofN 432) KNil) KNil KNil)));
  (* builder.go:5096 stCase432 *) ((LCase 432), (KIf (CAnd (CByte OGe 33) (CByte OLe 126)) (KGoto (LSt 433) KNil) KNil (KGoto (LSt 0) KNil)));
  (* builder.go:5101 st433 *) ((LSt 433), (KInc (KIf CPe (KGoto (LEofN 433) KNil) KNil KNil)));
  (* builder.go:5105 stCase433 *) ((LCase 433), (KIf (CAnd (CByte OGe 33) (CByte OLe 126)) (KGoto (LSt 434) KNil) KNil (KGoto (LSt 0) KNil)));
  (* builder.go:5110 st434 *) ((LSt 434), (KInc (KIf CPe (KGoto (LEofN 434) KNil) KNil KNil)));
  (* builder.go:5114 stCase434 *) ((LCase 434), (KIf (CAnd (CByte OGe 33) (CByte OLe 126)) (KGoto (LSt 435) KNil) KNil (KGoto (LSt 0) KNil)));
  (* builder.go:5119 st435 *) ((LSt 435), (KInc (KIf CPe (KGoto (LEofN 435) KNil) KNil KNil)));
  (* builder.go:5123 stCase435 *) ((LCase 435), (KIf (CAnd (CByte OGe 33) (CByte OLe 126)) (KGoto (LSt 436) KNil) KNil (KGoto (LSt 0) KNil)));
  (* builder.go:5128 st436 *) ((LSt 436), (KInc (KIf CPe (KGoto (LEofN 436) KNil) KNil KNil)));
  (* builder.go:5132 stCase436 *) ((LCase 436), (KIf (CAnd (CByte OGe 33) (CByte OLe 126)) (KGoto (LSt 437) KNil) KNil (KGoto (LSt 0) KNil)));
  (* builder.go:5137 st437 *) ((LSt 437), (KInc (KIf CPe (KGoto (LEofN 437) KNil) KNil KNil)));
  (* builder.go:5141 stCase437 *) ((LCase 437), (KIf (CAnd (CByte OGe 33) (CByte OLe 126)) (KGoto (LSt 438) KNil) KNil (KGoto (LSt 0) KNil)));
  (* builder.go:5146 st438 *) ((LSt 438), (KInc (KIf CPe (KGoto (LEofN 438) KNil) KNil KNil)));
  (* builder.go:5150 stCase438 *) ((LCase 438), (KIf (CAnd (CByte OGe 33) (CByte OLe 126)) (KGoto (LSt 439) KNil) KNil (KGoto (LSt 0) KNil)));
  (* builder.go:5155 st439 *) ((LSt 439), (KInc (KIf CPe (KGoto (LEofN 439) KNil) KNil KNil)));
  (* builder.go:5159 stCase439 *) ((LCase 439), (KIf (CAnd (CByte OGe 33) (CByte OLe 126)) (KGoto (LSt 440) KNil) KNil (KGoto (LSt 0) KNil)));
  (* builder.go:5164 st440 *) ((LSt 440), (KInc (KIf CPe (KGoto (LEofN 440) KNil) KNil KNil)));
  (* builder.go:5168 stCase440 *) ((LCase 440), (KIf (CAnd (CByte OGe 33) (CByte OLe 126)) (KGoto (LSt 441) KNil) KNil (KGoto (LSt 0) KNil)));
  (* builder.go:5173 st441 *) ((LSt 441), (KInc (KIf CPe (KGoto (LEofN 441) KNil) KNil KNil)));
  (* builder.go:5177 stCase441 *) ((LCase 441), (KIf (CAnd (CByte OGe 33) (CByte OLe 126)) (KGoto (LSt 442) KNil) KNil (KGoto (LSt 0) KNil)));
  (* builder.go:5182 st442 *) ((LSt 442), (KInc (KIf CPe (KGoto (LEofN 442) KNil) KNil KNil)));
  (* builder.go:5186 stCase442 *) ((LCase 442), (KIf (CAnd (CByte OGe 33) (CByte OLe 126)) (KGoto (LSt 443) KNil) KNil (KGoto (LSt 0) KNil)));
  (* builder.go:5191 st443 *) ((LSt 443), (KInc (KIf CPe (KGoto (LEofN 443) KNil) KNil KNil)));
  (* builder.go:5195 stCase443 *) ((LCase 443), (KIf (CAnd (CByte OGe 33) (CByte OLe 126)) (KGoto (LSt 444) KNil) KNil (KGoto (LSt 0) KNil)));
  (* builder.go:5200 st444 *) ((LSt 444), (KInc (KIf CPe (KGoto (LEofN 444) KNil) KNil KNil)));
  (* builder.go:5204 stCase444 *) ((LCase 444), (KIf (CAnd (CByte OGe 33) (CByte OLe 126)) (KGoto (LSt 445) KNil) KNil (KGoto (LSt 0) KNil)));
  (* builder.go:5209 st445 *) ((LSt 445), (KInc (KIf CPe (KGoto (LEofN 445) KNil) KNil KNil)));
  (* builder.go:5213 stCase445 *) ((LCase 445), (KIf (CAnd (CByte OGe 33) (CByte OLe 126)) (KGoto (LSt 446) KNil) KNil (KGoto (LSt 0) KNil)));
  (* builder.go:5218 st446 *) ((LSt 446), (KInc (KIf CPe (KGoto (LEofN 446) KNil) KNil KNil)));
  (* builder.go:5222 stCase446 *) ((LCase 446), (KIf (CAnd (CByte OGe 33) (CByte OLe 126)) (KGoto (LSt 447) KNil) KNil (KGoto (LSt 0) KNil)));
  (* builder.go:5227 st447 *) ((LSt 447), (KInc (KIf CPe (KGoto (LEofN 447) KNil) KNil KNil)));
  (* builder.go:5231 stCase447 *) ((LCase 447), (KIf (CAnd (CByte OGe 33) (CByte OLe 126)) (KGoto (LSt 448) KNil) KNil (KGoto (LSt 0) KNil)));
  (* builder.go:5236 st448 *) ((LSt 448), (KInc (KIf CPe (KGoto (LEofN 448) KNil) KNil KNil)));
  (* builder.go:5240 stCase448 *) ((LCase 448), (KIf (CAnd (CByte OGe 33) (CByte OLe 126)) (KGoto (LSt 449) KNil) KNil (KGoto (LSt 0) KNil)));
  (* builder.go:5245 st449 *) ((LSt 449), (KInc (KIf CPe (KGoto (LEofN 449) KNil) KNil KNil)));
  (* builder.go:5249 stCase449 *) ((LCase 449), (KIf (CAnd (CByte OGe 33) (CByte OLe 126)) (KGoto (LSt 450) KNil) KNil (KGoto (LSt 0) KNil)));
  (* builder.go:5254 st450 *) ((LSt 450), (KInc (KIf CPe (KGoto (LEofN 450) KNil) KNil KNil)));
  (* builder.go:5258 stCase450 *) ((LCase 450), (KIf (CAnd (CByte OGe 33) (CByte OLe 126)) (KGoto (LSt 451) KNil) KNil (KGoto (LSt 0) KNil)));
  (* builder.go:5263 st451 *) ((LSt 451), (KInc (KIf CPe (KGoto (LEofN 451) KNil) KNil KNil)));
  (* builder.go:5267 stCase451 *) ((LCase 451), (KIf (CAnd (CByte OGe 33) (CByte OLe 126)) (KGoto (LSt 452) KNil) KNil (KGoto (LSt 0) KNil)));
  (* builder.go:5272 st452 *) ((LSt 452), (KInc (KIf CPe (KGoto (LEofN 452) KNil) KNil KNil)));
  (* builder.go:5276 stCase452 *) ((LCase 452), (KIf (CAnd (CByte OGe 33) (CByte OLe 126)) (KGoto (LSt 453) KNil) KNil (KGoto (LSt 0) KNil)));
  (* builder.go:5281 st453 *) ((LSt 453), (KInc (KIf CPe (KGoto (LEofN 453) KNil) KNil KNil)));
  (* builder.go:5285 stCase453 *) ((LCase 453), (KIf (CAnd (CByte OGe 33) (CByte OLe 126)) (KGoto (LSt 454) KNil) KNil (KGoto (LSt 0) KNil)));
  (* builder.go:5290 st454 *) ((LSt 454), (KInc (KIf CPe (KGoto (LEofN 454) KNil) KNil KNil)));
  (* builder.go:5294 stCase454 *) ((LCase 454), (KIf (CAnd (CByte OGe 33) (CByte OLe 126)) (KGoto (LSt 455) KNil) KNil (KGoto (LSt 0) KNil)));
  (* builder.go:5299 st455 *) ((LSt 455), (KInc (KIf CPe (KGoto (LEofN 455) KNil) KNil KNil)));
  (* builder.go:5303 stCase455 *) ((LCase 455), (KIf (CAnd (CByte OGe 33) (CByte OLe 126)) (KGoto (LSt 456) KNil) KNil (KGoto (LSt 0) KNil)));
  (* builder.go:5308 st456 *) ((LSt 456), (KInc (KIf CPe (KGoto (LEofN 456) KNil) KNil KNil)));
  (* builder.go:5312 stCase456 *) ((LCase 456), (KIf (CAnd (CByte OGe 33) (CByte OLe 126)) (KGoto (LSt 457) KNil) KNil (KGoto (LSt 0) KNil)));
  (* builder.go:5317 st457 *) ((LSt 457), (KInc (KIf CPe (KGoto (LEofN 457) KNil) KNil KNil)));
  (* builder.go:5321 stCase457 *) ((LCase 457), (KIf (CAnd (CByte OGe 33) (CByte OLe 126)) (KGoto (LSt 458) KNil) KNil (KGoto (LSt 0) KNil)));
  (* builder.go:5326 st458 *) ((LSt 458), (KInc (KIf CPe (KGoto (LEofN 458) KNil) KNil KNil)));
  (* builder.go:5330 stCase458 *) ((LCase 458), (KIf (CAnd (CByte OGe 33) (CByte OLe 126)) (KGoto (LSt 459) KNil) KNil (KGoto (LSt 0) KNil)));
  (* builder.go:5335 st459 *) ((LSt 459), (KInc (KIf CPe (KGoto (LEofN 459) KNil) KNil KNil)));
  (* builder.go:5339 stCase459 *) ((LCase 459), (KIf (CAnd (CByte OGe 33) (CByte OLe 126)) (KGoto (LSt 460) KNil) KNil (KGoto (LSt 0) KNil)));
  (* builder.go:5344 st460 *) ((LSt 460), (KInc (KIf CPe (KGoto (LEofN 460) KNil) KNil KNil)))
].

(* /repo/rfc5424/builder.go *)
Definition progBuilder_15 : list (label * code act cnd) := [
  (* builder.go:5348 stCase460 *) ((LCase 460), (KIf (CAnd (CByte OGe 33) (CByte OLe 126)) (KGoto (LSt 461) KNil) KNil (KGoto (LSt 0) KNil)));
  (* builder.go:5353 st461 *) ((LSt 461), (KInc (KIf CPe (KGoto (LEofN 461) KNil) KNil KNil)));
  (* builder.go:5357 stCase461 *) ((LCase 461), (KIf (CAnd (CByte OGe 33) (CByte OLe 126)) (KGoto (LSt 462) KNil) KNil (KGoto (LSt 0) KNil)));
  (* builder.go:5362 st462 *) ((LSt 462), (KInc (KIf CPe (KGoto (LEofN 462) KNil) KNil KNil)));
  (* builder.go:5366 stCase462 *) ((LCase 462), (KIf (CAnd (CByte OGe 33) (CByte OLe 126)) (KGoto (LSt 463) KNil) KNil (KGoto (LSt 0) KNil)));
  (* builder.go:5371 st463 *) ((LSt 463), (KInc (KIf CPe (KGoto (LEofN 463) KNil) KNil KNil)));
  (* builder.go:5375 stCase463 *) ((LCase 463), (KIf (CAnd (CByte OGe 33) (CByte OLe 126)) (KGoto (LSt 464) KNil) KNil (KGoto (LSt 0) KNil)));
  (* builder.go:5380 st464 *) ((LSt 464), (KInc (KIf CPe (KGoto (LEofN 464) KNil) KNil KNil)));
  (* builder.go:5384 stCase464 *) ((LCase 464), (KIf (CAnd (CByte OGe 33) (CByte OLe 126)) (KGoto (LSt 465) KNil) KNil (KGoto (LSt 0) KNil)));
  (* builder.go:5389 st465 *) ((LSt 465), (KInc (KIf CPe (KGoto (LEofN 465) KNil) KNil KNil)));
  (* builder.go:5393 stCase465 *) ((LCase 465), (KIf (CAnd (CByte OGe 33) (CByte OLe 126)) (KGoto (LSt 466) KNil) KNil (KGoto (LSt 0) KNil)));
  (* builder.go:5398 st466 *) ((LSt 466), (KInc (KIf CPe (KGoto (LEofN 466) KNil) KNil KNil)));
  (* builder.go:5402 stCase466 *) ((LCase 466), (KIf (CAnd (CByte OGe 33) (CByte OLe 126)) (KGoto (LSt 467) KNil) KNil (KGoto (LSt 0) KNil)));
  (* builder.go:5407 st467 *) ((LSt 467), (KInc (KIf CPe (KGoto (LEofN 467) KNil) KNil KNil)));
  (* builder.go:5411 stCase467 *) ((LCase 467), (KIf (CAnd (CByte OGe 33) (CByte OLe 126)) (KGoto (LSt 468) KNil) KNil (KGoto (LSt 0) KNil)));
  (* builder.go:5416 st468 *) ((LSt 468), (KInc (KIf CPe (KGoto (LEofN 468) KNil) KNil KNil)));
  (* builder.go:5420 stCase468 *) ((LCase 468), (KIf (CAnd (CByte OGe 33) (CByte OLe 126)) (KGoto (LSt 469) KNil) KNil (KGoto (LSt 0) KNil)));
  (* builder.go:5425 st469 *) ((LSt 469), (KInc (KIf CPe (KGoto (LEofN 469) KNil) KNil KNil)));
  (* builder.go:5429 stCase469 *) ((LCase 469), (KIf (CAnd (CByte OGe 33) (CByte OLe 126)) (KGoto (LSt 470) KNil) KNil (KGoto (LSt 0) KNil)));
  (* builder.go:5434 st470 *) ((LSt 470), (KInc (KIf CPe (KGoto (LEofN 470) KNil) KNil KNil)));
  (* builder.go:5438 stCase470 *) ((LCase 470), (KIf (CAnd (CByte OGe 33) (CByte OLe 126)) (KGoto (LSt 471) KNil) KNil (KGoto (LSt 0) KNil)));
  (* builder.go:5443 st471 *) ((LSt 471), (KInc (KIf CPe (KGoto (LEofN 471) KNil) KNil KNil)));
  (* builder.go:5447 stCase471 *) ((LCase 471), (KIf (CAnd (CByte OGe 33) (CByte OLe 126)) (KGoto (LSt 472) KNil) KNil (KGoto (LSt 0) KNil)));
  (* builder.go:5452 st472 *) ((LSt 472), (KInc (KIf CPe (KGoto (LEofN 472) KNil) KNil KNil)));
  (* builder.go:5456 stCase472 *) ((LCase 472), (KIf (CAnd (CByte OGe 33) (CByte OLe 126)) (KGoto (LSt 473) KNil) KNil (KGoto (LSt 0) KNil)));
  (* builder.go:5461 st473 *) ((LSt 473), (KInc (KIf CPe (KGoto (LEofN 473) KNil) KNil KNil)));
  (* builder.go:5465 stCase473 *) ((LCase 473), (KIf (CAnd (CByte OGe 33) (CByte OLe 126)) (KGoto (LSt 474) KNil) KNil (KGoto (LSt 0) KNil)));
  (* builder.go:5470 st474 *) ((LSt 474), (KInc (KIf CPe (KGoto (LEofN 474) KNil) KNil KNil)));
  (* builder.go:5474 stCase474 *) ((LCase 474), (KIf (CAnd (CByte OGe 33) (CByte OLe 126)) (KGoto (LSt 475) KNil) KNil (KGoto (LSt 0) KNil)));
  (* builder.go:5479 st475 *) ((LSt 475), (KInc (KIf CPe (KGoto (LEofN 475) KNil) KNil KNil)));
  (* builder.go:5483 stCase475 *) ((LCase 475), (KIf (CAnd (CByte OGe 33) (CByte OLe 126)) (KGoto (LSt 476) KNil) KNil (KGoto (LSt 0) KNil)));
  (* builder.go:5488 st476 *) ((LSt 476), (KInc (KIf CPe (KGoto (LEofN 476) KNil) KNil KNil)));
  (* builder.go:5492 stCase476 *) ((LCase 476), (KIf (CAnd (CByte OGe 33) (CByte OLe 126)) (KGoto (LSt 477) KNil) KNil (KGoto (LSt 0) KNil)));
  (* builder.go:5497 st477 *) ((LSt 477), (KInc (KIf CPe (KGoto (LEofN 477) KNil) KNil KNil)));
  (* builder.go:5501 stCase477 *) ((LCase 477), (KIf (CAnd (CByte OGe 33) (CByte OLe 126)) (KGoto (LSt 478) KNil) KNil (KGoto (LSt 0) KNil)));
  (* builder.go:5506 st478 *) ((LSt 478), (KInc (KIf CPe (KGoto (LEofN 478) KNil) KNil KNil)));
  (* builder.go:5510 stCase478 *) ((LCase 478), (KIf (CAnd (CByte OGe 33) (CByte OLe 126)) (KGoto (LSt 479) KNil) KNil (KGoto (LSt 0) KNil)));
  (* builder.go:5515 st479 *) ((LSt 479), (KInc (KIf CPe (KGoto (LEofN 479) KNil) KNil KNil)));
  (* builder.go:5519 stCase479 *) ((LCase 479), (KIf (CAnd (CByte OGe 33) (CByte OLe 126)) (KGoto (LSt 480) KNil) KNil (KGoto (LSt 0) KNil)));
  (* builder.go:5524 st480 *) ((LSt 480), (KInc (KIf CPe (KGoto (LEofN 480) KNil) KNil KNil)));
  (* builder.go:5528 stCase480 *) ((LCase 480), (KIf (CAnd (CByte OGe 33) (CByte OLe 126)) (KGoto (LSt 481) KNil) KNil (KGoto (LSt 0) KNil)));
  (* builder.go:5533 st481 *) ((LSt 481), (KInc (KIf CPe (KGoto (LEofN 481) KNil) KNil KNil)));
  (* builder.go:5537 stCase481 *) ((LCase 481), (KIf (CAnd (CByte OGe 33) (CByte OLe 126)) (KGoto (LSt 482) KNil) KNil (KGoto (LSt 0) KNil)));
  (* builder.go:5542 st482 *) ((LSt 482), (KInc (KIf CPe (KGoto (LEofN 482) KNil) KNil KNil)));
  (* builder.go:5546 stCase482 *) ((LCase 482), (KIf (CAnd (CByte OGe 33) (CByte OLe 126)) (KGoto (LSt 483) KNil) KNil (KGoto (LSt 0) KNil)));
  (* builder.go:5551 st483 *) ((LSt 483), (KInc (KIf CPe (KGoto (LEofN 483) KNil) KNil KNil)));
  (* builder.go:5555 stCase483 *) ((LCase 483), (KIf (CAnd (CByte OGe 33) (CByte OLe 126)) (KGoto (LSt 484) KNil) KNil (KGoto (LSt 0) KNil)));
  (* builder.go:5560 st484 *) ((LSt 484), (KInc (KIf CPe (KGoto (LEofN 484) KNil) KNil KNil)));
  (* builder.go:5564 stCase484 *) ((LCase 484), (KIf (CAnd (CByte OGe 33) (CByte OLe 126)) (KGoto (LSt 485) KNil) KNil (KGoto (LSt 0) KNil)));
  (* builder.go:5569 st485 *) ((LSt 485), (KInc (KIf CPe (KGoto (LEofN 485) KNil) KNil KNil)));
  (* builder.go:5573 stCase485 *) ((LCase 485), (KGoto (LSt 0) KNil));
  (* builder.go:5575 stCase41 *) ((LCase 41), (KIf (CAnd (CByte OGe 33) (CByte OLe 126)) (KGoto (LTr 41) KNil) KNil (KGoto (LSt 0) KNil)));
  (* builder.go:5580 tr41 *) ((LTr 41), (KAct BPb (KGoto (LSt 486) KNil)));
  (* builder.go:5585 st486 *) ((LSt 486), (KInc (KIf CPe (KGoto (LEofN 486) KNil) KNil KNil)));
  (* builder.go:5589 stCase486 *) ((LCase 486), (KIf (CAnd (CByte OGe 33) (CByte OLe 126)) (KGoto (LSt 487) KNil) KNil (KGoto (LSt 0) KNil)));
  (* builder.go:5594 st487 *) ((LSt 487), (KInc (KIf CPe (KGoto (LEofN 487) KNil) KNil KNil)));
  (* builder.go:5598 stCase487 *) ((LCase 487), (KIf (CAnd (CByte OGe 33) (CByte OLe 126)) (KGoto (LSt 488) KNil) KNil (KGoto (LSt 0) KNil)));
  (* builder.go:5603 st488 *) ((LSt 488), (KInc (KIf CPe (KGoto (LEofN 488) KNil) KNil KNil)));
  (* builder.go:5607 stCase488 *) ((LCase 488), (KIf (CAnd (CByte OGe 33) (CByte OLe 126)) (KGoto (LSt 489) KNil) KNil (KGoto (LSt 0) KNil)));
  (* builder.go:5612 st489 *) ((LSt 489), (KInc (KIf CPe (KGoto (LEofN 489) KNil) KNil KNil)))
].

(* /repo/rfc5424/builder.go *)
Definition progBuilder_16 : list (label * code act cnd) := [
  (* builder.go:5616 stCase489 *) ((LCase 489), (KIf (CAnd (CByte OGe 33) (CByte OLe 126)) (KGoto (LSt 490) KNil) KNil (KGoto (LSt 0) KNil)));
  (* builder.go:5621 st490 *) ((LSt 490), (KInc (KIf CPe (KGoto (LEofN 490) KNil) KNil KNil)));
  (* builder.go:5625 stCase490 *) ((LCase 490), (KIf (CAnd (CByte OGe 33) (CByte OLe 126)) (KGoto (LSt 491) KNil) KNil (KGoto (LSt 0) KNil)));
  (* builder.go:5630 st491 *) ((LSt 491), (KInc (KIf CPe (KGoto (LEofN 491) KNil) KNil KNil)));
  (* builder.go:5634 stCase491 *) ((LCase 491), (KIf (CAnd (CByte OGe 33) (CByte OLe 126)) (KGoto (LSt 492) KNil) KNil (KGoto (LSt 0) KNil)));
  (* builder.go:5639 st492 *) ((LSt 492), (KInc (KIf CPe (KGoto (LEofN 492) KNil) KNil KNil)));
  (* builder.go:5643 stCase492 *) ((LCase 492), (KIf (CAnd (CByte OGe 33) (CByte OLe 126)) (KGoto (LSt 493) KNil) KNil (KGoto (LSt 0) KNil)));
  (* builder.go:5648 st493 *) ((LSt 493), (KInc (KIf CPe (KGoto (LEofN 493) KNil) KNil KNil)));
  (* builder.go:5652 stCase493 *) ((LCase 493), (KIf (CAnd (CByte OGe 33) (CByte OLe 126)) (KGoto (LSt 494) KNil) KNil (KGoto (LSt 0) KNil)));
  (* builder.go:5657 st494 *) ((LSt 494), (KInc (KIf CPe (KGoto (LEofN 494) KNil) KNil KNil)));
  (* builder.go:5661 stCase494 *) ((LCase 494), (KIf (CAnd (CByte OGe 33) (CByte OLe 126)) (KGoto (LSt 495) KNil) KNil (KGoto (LSt 0) KNil)));
  (* builder.go:5666 st495 *) ((LSt 495), (KInc (KIf CPe (KGoto (LEofN 495) KNil) KNil KNil)));
  (* builder.go:5670 stCase495 *) ((LCase 495), (KIf (CAnd (CByte OGe 33) (CByte OLe 126)) (KGoto (LSt 496) KNil) KNil (KGoto (LSt 0) KNil)));
  (* builder.go:5675 st496 *) ((LSt 496), (KInc (KIf CPe (KGoto (LEofN 496) KNil) KNil KNil)));
  (* builder.go:5679 stCase496 *) ((LCase 496), (KIf (CAnd (CByte OGe 33) (CByte OLe 126)) (KGoto (LSt 497) KNil) KNil (KGoto (LSt 0) KNil)));
  (* builder.go:5684 st497 *) ((LSt 497), (KInc (KIf CPe (KGoto (LEofN 497) KNil) KNil KNil)));
  (* builder.go:5688 stCase497 *) ((LCase 497), (KIf (CAnd (CByte OGe 33) (CByte OLe 126)) (KGoto (LSt 498) KNil) KNil (KGoto (LSt 0) KNil)));
  (* builder.go:5693 st498 *) ((LSt 498), (KInc (KIf CPe (KGoto (LEofN 498) KNil) KNil KNil)));
  (* builder.go:5697 stCase498 *) ((LCase 498), (KIf (CAnd (CByte OGe 33) (CByte OLe 126)) (KGoto (LSt 499) KNil) KNil (KGoto (LSt 0) KNil)));
  (* builder.go:5702 st499 *) ((LSt 499), (KInc (KIf CPe (KGoto (LEofN 499) KNil) KNil KNil)));
  (* builder.go:5706 stCase499 *) ((LCase 499), (KIf (CAnd (CByte OGe 33) (CByte OLe 126)) (KGoto (LSt 500) KNil) KNil (KGoto (LSt 0) KNil)));
  (* builder.go:5711 st500 *) ((LSt 500), (KInc (KIf CPe (KGoto (LEofN 500) KNil) KNil KNil)));
  (* builder.go:5715 stCase500 *) ((LCase 500), (KIf (CAnd (CByte OGe 33) (CByte OLe 126)) (KGoto (LSt 501) KNil) KNil (KGoto (LSt 0) KNil)));
  (* builder.go:5720 st501 *) ((LSt 501), (KInc (KIf CPe (KGoto (LEofN 501) KNil) KNil KNil)));
  (* builder.go:5724 stCase501 *) ((LCase 501), (KIf (CAnd (CByte OGe 33) (CByte OLe 126)) (KGoto (LSt 502) KNil) KNil (KGoto (LSt 0) KNil)));
  (* builder.go:5729 st502 *) ((LSt 502), (KInc (KIf CPe (KGoto (LEofN 502) KNil) KNil KNil)));
  (* builder.go:5733 stCase502 *) ((LCase 502), (KIf (CAnd (CByte OGe 33) (CByte OLe 126)) (KGoto (LSt 503) KNil) KNil (KGoto (LSt 0) KNil)));
  (* builder.go:5738 st503 *) ((LSt 503), (KInc (KIf CPe (KGoto (LEofN 503) KNil) KNil KNil)));
  (* builder.go:5742 stCase503 *) ((LCase 503), (KIf (CAnd (CByte OGe 33) (CByte OLe 126)) (KGoto (LSt 504) KNil) KNil (KGoto (LSt 0) KNil)));
  (* builder.go:5747 st504 *) ((LSt 504), (KInc (KIf CPe (KGoto (LEofN 504) KNil) KNil KNil)));
  (* builder.go:5751 stCase504 *) ((LCase 504), (KIf (CAnd (CByte OGe 33) (CByte OLe 126)) (KGoto (LSt 505) KNil) KNil (KGoto (LSt 0) KNil)));
  (* builder.go:5756 st505 *) ((LSt 505), (KInc (KIf CPe (KGoto (LEofN 505) KNil) KNil KNil)));
  (* builder.go:5760 stCase505 *) ((LCase 505), (KIf (CAnd (CByte OGe 33) (CByte OLe 126)) (KGoto (LSt 506) KNil) KNil (KGoto (LSt 0) KNil)));
  (* builder.go:5765 st506 *) ((LSt 506), (KInc (KIf CPe (KGoto (LEofN 506) KNil) KNil KNil)));
  (* builder.go:5769 stCase506 *) ((LCase 506), (KIf (CAnd (CByte OGe 33) (CByte OLe 126)) (KGoto (LSt 507) KNil) KNil (KGoto (LSt 0) KNil)));
  (* builder.go:5774 st507 *) ((LSt 507), (KInc (KIf CPe (KGoto (LEofN 507) KNil) KNil KNil)));
  (* builder.go:5778 stCase507 *) ((LCase 507), (KIf (CAnd (CByte OGe 33) (CByte OLe 126)) (KGoto (LSt 508) KNil) KNil (KGoto (LSt 0) KNil)));
  (* builder.go:5783 st508 *) ((LSt 508), (KInc (KIf CPe (KGoto (LEofN 508) KNil) KNil KNil)));
  (* builder.go:5787 stCase508 *) ((LCase 508), (KIf (CAnd (CByte OGe 33) (CByte OLe 126)) (KGoto (LSt 509) KNil) KNil (KGoto (LSt 0) KNil)));
  (* builder.go:5792 st509 *) ((LSt 509), (KInc (KIf CPe (KGoto (LEofN 509) KNil) KNil KNil)));
  (* builder.go:5796 stCase509 *) ((LCase 509), (KIf (CAnd (CByte OGe 33) (CByte OLe 126)) (KGoto (LSt 510) KNil) KNil (KGoto (LSt 0) KNil)));
  (* builder.go:5801 st510 *) ((LSt 510), (KInc (KIf CPe (KGoto (LEofN 510) KNil) KNil KNil)));
  (* builder.go:5805 stCase510 *) ((LCase 510), (KIf (CAnd (CByte OGe 33) (CByte OLe 126)) (KGoto (LSt 511) KNil) KNil (KGoto (LSt 0) KNil)));
  (* builder.go:5810 st511 *) ((LSt 511), (KInc (KIf CPe (KGoto (LEofN 511) KNil) KNil KNil)));
  (* builder.go:5814 stCase511 *) ((LCase 511), (KIf (CAnd (CByte OGe 33) (CByte OLe 126)) (KGoto (LSt 512) KNil) KNil (KGoto (LSt 0) KNil)));
  (* builder.go:5819 st512 *) ((LSt 512), (KInc (KIf CPe (KGoto (LEofN 512) KNil) KNil KNil)));
  (* builder.go:5823 stCase512 *) ((LCase 512), (KIf (CAnd (CByte OGe 33) (CByte OLe 126)) (KGoto (LSt 513) KNil) KNil (KGoto (LSt 0) KNil)));
  (* builder.go:5828 st513 *) ((LSt 513), (KInc (KIf CPe (KGoto (LEofN 513) KNil) KNil KNil)));
  (* builder.go:5832 stCase513 *) ((LCase 513), (KIf (CAnd (CByte OGe 33) (CByte OLe 126)) (KGoto (LSt 514) KNil) KNil (KGoto (LSt 0) KNil)));
  (* builder.go:5837 st514 *) ((LSt 514), (KInc (KIf CPe (KGoto (LEofN 514) KNil) KNil KNil)));
  (* builder.go:5841 stCase514 *) ((LCase 514), (KIf (CAnd (CByte OGe 33) (CByte OLe 126)) (KGoto (LSt 515) KNil) KNil (KGoto (LSt 0) KNil)));
  (* builder.go:5846 st515 *) ((LSt 515), (KInc (KIf CPe (KGoto (LEofN 515) KNil) KNil KNil)));
  (* builder.go:5850 stCase515 *) ((LCase 515), (KIf (CAnd (CByte OGe 33) (CByte OLe 126)) (KGoto (LSt 516) KNil) KNil (KGoto (LSt 0) KNil)));
  (* builder.go:5855 st516 *) ((LSt 516), (KInc (KIf CPe (KGoto (LEofN 516) KNil) KNil KNil)));
  (* builder.go:5859 stCase516 *) ((LCase 516), (KIf (CAnd (CByte OGe 33) (CByte OLe 126)) (KGoto (LSt 517) KNil) KNil (KGoto (LSt 0) KNil)));
  (* builder.go:5864 st517 *) ((LSt 517), (KInc (KIf CPe (KGoto (LEofN 517) KNil) KNil KNil)));
  (* builder.go:5868 stCase517 *) ((LCase 517), (KGoto (LSt 0) KNil));
  (* builder.go:5870 stCase42 *) ((LCase 42), (KIf (CByte OEq 33) (KGoto (LTr 42) KNil) KNil (KBlk (KIf (CByte OLt 62) (KIf (CAnd (CByte OGe 35) (CByte OLe 60)) (KGoto (LTr 42) KNil) KNil KNil) (KIf (CByte OGt 92) (KIf (CAnd (CByte OGe 94) (CByte OLe 126)) (KGoto (LTr 42) KNil) KNil KNil) (KGoto (LTr 42) KNil) KNil) KNil) (KGoto (LSt 0) KNil))));
  (* builder.go:5887 tr42 *) ((LTr 42), (KAct BPb (KGoto (LSt 518) KNil)));
  (* builder.go:5892 st518 *) ((LSt 518), (KInc (KIf CPe (KGoto (LEofN 518) KNil) KNil KNil)))
].

(* /repo/rfc5424/builder.go *)
Definition progBuilder_17 : list (label * code act cnd) := [
  (* builder.go:5896 stCase518 *) ((LCase 518), (KIf (CByte OEq 33) (KGoto (LSt 519) KNil) KNil (KBlk (KIf (CByte OLt 62) (KIf (CAnd (CByte OGe 35) (CByte OLe 60)) (KGoto (LSt 519) KNil) KNil KNil) (KIf (CByte OGt 92) (KIf (CAnd (CByte OGe 94) (CByte OLe 126)) (KGoto (LSt 519) KNil) KNil KNil) (KGoto (LSt 519) KNil) KNil) KNil) (KGoto (LSt 0) KNil))));
  (* builder.go:5913 st519 *) ((LSt 519), (KInc (KIf CPe (KGoto (LEofN 519) KNil) KNil KNil)));
  (* builder.go:5917 stCase519 *) ((LCase 519), (KIf (CByte OEq 33) (KGoto (LSt 520) KNil) KNil (KBlk (KIf (CByte OLt 62) (KIf (CAnd (CByte OGe 35) (CByte OLe 60)) (KGoto (LSt 520) KNil) KNil KNil) (KIf (CByte OGt 92) (KIf (CAnd (CByte OGe 94) (CByte OLe 126)) (KGoto (LSt 520) KNil) KNil KNil) (KGoto (LSt 520) KNil) KNil) KNil) (KGoto (LSt 0) KNil))));
  (* builder.go:5934 st520 *) ((LSt 520), (KInc (KIf CPe (KGoto (LEofN 520) KNil) KNil KNil)));
  (* builder.go:5938 stCase520 *) ((LCase 520), (KIf (CByte OEq 33) (KGoto (LSt 521) KNil) KNil (KBlk (KIf (CByte OLt 62) (KIf (CAnd (CByte OGe 35) (CByte OLe 60)) (KGoto (LSt 521) KNil) KNil KNil) (KIf (CByte OGt 92) (KIf (CAnd (CByte OGe 94) (CByte OLe 126)) (KGoto (LSt 521) KNil) KNil KNil) (KGoto (LSt 521) KNil) KNil) KNil) (KGoto (LSt 0) KNil))));
  (* builder.go:5955 st521 *) ((LSt 521), (KInc (KIf CPe (KGoto (LEofN 521) KNil) KNil KNil)));
  (* builder.go:5959 stCase521 *) ((LCase 521), (KIf (CByte OEq 33) (KGoto (LSt 522) KNil) KNil (KBlk (KIf (CByte OLt 62) (KIf (CAnd (CByte OGe 35) (CByte OLe 60)) (KGoto (LSt 522) KNil) KNil KNil) (KIf (CByte OGt 92) (KIf (CAnd (CByte OGe 94) (CByte OLe 126)) (KGoto (LSt 522) KNil) KNil KNil) (KGoto (LSt 522) KNil) KNil) KNil) (KGoto (LSt 0) KNil))));
  (* builder.go:5976 st522 *) ((LSt 522), (KInc (KIf CPe (KGoto (LEofN 522) KNil) KNil KNil)));
  (* builder.go:5980 stCase522 *) ((LCase 522), (KIf (CByte OEq 33) (KGoto (LSt 523) KNil) KNil (KBlk (KIf (CByte OLt 62) (KIf (CAnd (CByte OGe 35) (CByte OLe 60)) (KGoto (LSt 523) KNil) KNil KNil) (KIf (CByte OGt 92) (KIf (CAnd (CByte OGe 94) (CByte OLe 126)) (KGoto (LSt 523) KNil) KNil KNil) (KGoto (LSt 523) KNil) KNil) KNil) (KGoto (LSt 0) KNil))));
  (* builder.go:5997 st523 *) ((LSt 523), (KInc (KIf CPe (KGoto (LEofN 523) KNil) KNil KNil)));
  (* builder.go:6001 stCase523 *) ((LCase 523), (KIf (CByte OEq 33) (KGoto (LSt 524) KNil) KNil (KBlk (KIf (CByte OLt 62) (KIf (CAnd (CByte OGe 35) (CByte OLe 60)) (KGoto (LSt 524) KNil) KNil KNil) (KIf (CByte OGt 92) (KIf (CAnd (CByte OGe 94) (CByte OLe 126)) (KGoto (LSt 524) KNil) KNil KNil) (KGoto (LSt 524) KNil) KNil) KNil) (KGoto (LSt 0) KNil))));
  (* builder.go:6018 st524 *) ((LSt 524), (KInc (KIf CPe (KGoto (LEofN 524) KNil) KNil KNil)));
  (* builder.go:6022 stCase524 *) ((LCase 524), (KIf (CByte OEq 33) (KGoto (LSt 525) KNil) KNil (KBlk (KIf (CByte OLt 62) (KIf (CAnd (CByte OGe 35) (CByte OLe 60)) (KGoto (LSt 525) KNil) KNil KNil) (KIf (CByte OGt 92) (KIf (CAnd (CByte OGe 94) (CByte OLe 126)) (KGoto (LSt 525) KNil) KNil KNil) (KGoto (LSt 525) KNil) KNil) KNil) (KGoto (LSt 0) KNil))));
  (* builder.go:6039 st525 *) ((LSt 525), (KInc (KIf CPe (KGoto (LEofN 525) KNil) KNil KNil)));
  (* builder.go:6043 stCase525 *) ((LCase 525), (KIf (CByte OEq 33) (KGoto (LSt 526) KNil) KNil (KBlk (KIf (CByte OLt 62) (KIf (CAnd (CByte OGe 35) (CByte OLe 60)) (KGoto (LSt 526) KNil) KNil KNil) (KIf (CByte OGt 92) (KIf (CAnd (CByte OGe 94) (CByte OLe 126)) (KGoto (LSt 526) KNil) KNil KNil) (KGoto (LSt 526) KNil) KNil) KNil) (KGoto (LSt 0) KNil))));
  (* builder.go:6060 st526 *) ((LSt 526), (KInc (KIf CPe (KGoto (LEofN 526) KNil) KNil KNil)));
  (* builder.go:6064 stCase526 *) ((LCase 526), (KIf (CByte OEq 33) (KGoto (LSt 527) KNil) KNil (KBlk (KIf (CByte OLt 62) (KIf (CAnd (CByte OGe 35) (CByte OLe 60)) (KGoto (LSt 527) KNil) KNil KNil) (KIf (CByte OGt 92) (KIf (CAnd (CByte OGe 94) (CByte OLe 126)) (KGoto (LSt 527) KNil) KNil KNil) (KGoto (LSt 527) KNil) KNil) KNil) (KGoto (LSt 0) KNil))));
  (* builder.go:6081 st527 *) ((LSt 527), (KInc (KIf CPe (KGoto (LEofN 527) KNil) KNil KNil)));
  (* builder.go:6085 stCase527 *) ((LCase 527), (KIf (CByte OEq 33) (KGoto (LSt 528) KNil) KNil (KBlk (KIf (CByte OLt 62) (KIf (CAnd (CByte OGe 35) (CByte OLe 60)) (KGoto (LSt 528) KNil) KNil KNil) (KIf (CByte OGt 92) (KIf (CAnd (CByte OGe 94) (CByte OLe 126)) (KGoto (LSt 528) KNil) KNil KNil) (KGoto (LSt 528) KNil) KNil) KNil) (KGoto (LSt 0) KNil))));
  (* builder.go:6102 st528 *) ((LSt 528), (KInc (KIf CPe (KGoto (LEofN 528) KNil) KNil KNil)));
  (* builder.go:6106 stCase528 *) ((LCase 528), (KIf (CByte OEq 33) (KGoto (LSt 529) KNil) KNil (KBlk (KIf (CByte OLt 62) (KIf (CAnd (CByte OGe 35) (CByte OLe 60)) (KGoto (LSt 529) KNil) KNil KNil) (KIf (CByte OGt 92) (KIf (CAnd (CByte OGe 94) (CByte OLe 126)) (KGoto (LSt 529) KNil) KNil KNil) (KGoto (LSt 529) KNil) KNil) KNil) (KGoto (LSt 0) KNil))));
  (* builder.go:6123 st529 *) ((LSt 529), (KInc (KIf CPe (KGoto (LEofN 529) KNil) KNil KNil)));
  (* builder.go:6127 stCase529 *) ((LCase 529), (KIf (CByte OEq 33) (KGoto (LSt 530) KNil) KNil (KBlk (KIf (CByte OLt 62) (KIf (CAnd (CByte OGe 35) (CByte OLe 60)) (KGoto (LSt 530) KNil) KNil KNil) (KIf (CByte OGt 92) (KIf (CAnd (CByte OGe 94) (CByte OLe 126)) (KGoto (LSt 530) KNil) KNil KNil) (KGoto (LSt 530) KNil) KNil) KNil) (KGoto (LSt 0) KNil))));
  (* builder.go:6144 st530 *) ((LSt 530), (KInc (KIf CPe (KGoto (LEofN 530) KNil) KNil KNil)));
  (* builder.go:6148 stCase530 *) ((LCase 530), (KIf (CByte OEq 33) (KGoto (LSt 531) KNil) KNil (KBlk (KIf (CByte OLt 62) (KIf (CAnd (CByte OGe 35) (CByte OLe 60)) (KGoto (LSt 531) KNil) KNil KNil) (KIf (CByte OGt 92) (KIf (CAnd (CByte OGe 94) (CByte OLe 126)) (KGoto (LSt 531) KNil) KNil KNil) (KGoto (LSt 531) KNil) KNil) KNil) (KGoto (LSt 0) KNil))));
  (* builder.go:6165 st531 *) ((LSt 531), (KInc (KIf CPe (KGoto (LEofN 531) KNil) KNil KNil)));
  (* builder.go:6169 stCase531 *) ((LCase 531), (KIf (CByte OEq 33) (KGoto (LSt 532) KNil) KNil (KBlk (KIf (CByte OLt 62) (KIf (CAnd (CByte OGe 35) (CByte OLe 60)) (KGoto (LSt 532) KNil) KNil KNil) (KIf (CByte OGt 92) (KIf (CAnd (CByte OGe 94) (CByte OLe 126)) (KGoto (LSt 532) KNil) KNil KNil) (KGoto (LSt 532) KNil) KNil) KNil) (KGoto (LSt 0) KNil))));
  (* builder.go:6186 st532 *) ((LSt 532), (KInc (KIf CPe (KGoto (LEofN 532) KNil) KNil KNil)));
  (* builder.go:6190 stCase532 *) ((LCase 532), (KIf (CByte OEq 33) (KGoto (LSt 533) KNil) KNil (KBlk (KIf (CByte OLt 62) (KIf (CAnd (CByte OGe 35) (CByte OLe 60)) (KGoto (LSt 533) KNil) KNil KNil) (KIf (CByte OGt 92) (KIf (CAnd (CByte OGe 94) (CByte OLe 126)) (KGoto (LSt 533) KNil) KNil KNil) (KGoto (LSt 533) KNil) KNil) KNil) (KGoto (LSt 0) KNil))));
  (* builder.go:6207 st533 *) ((LSt 533), (KInc (KIf CPe (KGoto (LEofN 533) KNil) KNil KNil)));
  (* builder.go:6211 stCase533 *) ((LCase 533), (KIf (CByte OEq 33) (KGoto (LSt 534) KNil) KNil (KBlk (KIf (CByte OLt 62) (KIf (CAnd (CByte OGe 35) (CByte OLe 60)) (KGoto (LSt 534) KNil) KNil KNil) (KIf (CByte OGt 92) (KIf (CAnd (CByte OGe 94) (CByte OLe 126)) (KGoto (LSt 534) KNil) KNil KNil) (KGoto (LSt 534) KNil) KNil) KNil) (KGoto (LSt 0) KNil))));
  (* builder.go:6228 st534 *) ((LSt 534), (KInc (KIf CPe (KGoto (LEofN 534) KNil) KNil KNil)));
  (* builder.go:6232 stCase534 *) ((LCase 534), (KIf (CByte OEq 33) (KGoto (LSt 535) KNil) KNil (KBlk (KIf (CByte OLt 62) (KIf (CAnd (CByte OGe 35) (CByte OLe 60)) (KGoto (LSt 535) KNil) KNil KNil) (KIf (CByte OGt 92) (KIf (CAnd (CByte OGe 94) (CByte OLe 126)) (KGoto (LSt 535) KNil) KNil KNil) (KGoto (LSt 535) KNil) KNil) KNil) (KGoto (LSt 0) KNil))));
  (* builder.go:6249 st535 *) ((LSt 535), (KInc (KIf CPe (KGoto (LEofN 535) KNil) KNil KNil)));
  (* builder.go:6253 stCase535 *) ((LCase 535), (KIf (CByte OEq 33) (KGoto (LSt 536) KNil) KNil (KBlk (KIf (CByte OLt 62) (KIf (CAnd (CByte OGe 35) (CByte OLe 60)) (KGoto (LSt 536) KNil) KNil KNil) (KIf (CByte OGt 92) (KIf (CAnd (CByte OGe 94) (CByte OLe 126)) (KGoto (LSt 536) KNil) KNil KNil) (KGoto (LSt 536) KNil) KNil) KNil) (KGoto (LSt 0) KNil))));
  (* builder.go:6270 st536 *) ((LSt 536), (KInc (KIf CPe (KGoto (LEofN 536) KNil) KNil KNil)));
  (* builder.go:6274 stCase536 *) ((LCase 536), (KIf (CByte OEq 33) (KGoto (LSt 537) KNil) KNil (KBlk (KIf (CByte OLt 62) (KIf (CAnd (CByte OGe 35) (CByte OLe 60)) (KGoto (LSt 537) KNil) KNil KNil) (KIf (CByte OGt 92) (KIf (CAnd (CByte OGe 94) (CByte OLe 126)) (KGoto (LSt 537) KNil) KNil KNil) (KGoto (LSt 537) KNil) KNil) KNil) (KGoto (LSt 0) KNil))));
  (* builder.go:6291 st537 *) ((LSt 537), (KInc (KIf CPe (KGoto (LEofN 537) KNil) KNil KNil)));
  (* builder.go:6295 stCase537 *) ((LCase 537), (KIf (CByte OEq 33) (KGoto (LSt 538) KNil) KNil (KBlk (KIf (CByte OLt 62) (KIf (CAnd (CByte OGe 35) (CByte OLe 60)) (KGoto (LSt 538) KNil) KNil KNil) (KIf (CByte OGt 92) (KIf (CAnd (CByte OGe 94) (CByte OLe 126)) (KGoto (LSt 538) KNil) KNil KNil) (KGoto (LSt 538) KNil) KNil) KNil) (KGoto (LSt 0) KNil))));
  (* builder.go:6312 st538 *) ((LSt 538), (KInc (KIf CPe (KGoto (LEofN 538) KNil) KNil KNil)));
  (* builder.go:6316 stCase538 *) ((LCase 538), (KIf (CByte OEq 33) (KGoto (LSt 539) KNil) KNil (KBlk (KIf (CByte OLt 62) (KIf (CAnd (CByte OGe 35) (CByte OLe 60)) (KGoto (LSt 539) KNil) KNil KNil) (KIf (CByte OGt 92) (KIf (CAnd (CByte OGe 94) (CByte OLe 126)) (KGoto (LSt 539) KNil) KNil KNil) (KGoto (LSt 539) KNil) KNil) KNil) (KGoto (LSt 0) KNil))));
  (* builder.go:6333 st539 *) ((LSt 539), (KInc (KIf CPe (KGoto (LEofN 539) KNil) KNil KNil)));
  (* builder.go:6337 stCase539 *) ((LCase 539), (KIf (CByte OEq 33) (KGoto (LSt 540) KNil) KNil (KBlk (KIf (CByte OLt 62) (KIf (CAnd (CByte OGe 35) (CByte OLe 60)) (KGoto (LSt 540) KNil) KNil KNil) (KIf (CByte OGt 92) (KIf (CAnd (CByte OGe 94) (CByte OLe 126)) (KGoto (LSt 540) KNil) KNil KNil) (KGoto (LSt 540) KNil) KNil) KNil) (KGoto (LSt 0) KNil))));
  (* builder.go:6354 st540 *) ((LSt 540), (KInc (KIf CPe (KGoto (LEofN 540) KNil) KNil KNil)));
  (* builder.go:6358 stCase540 *) ((LCase 540), (KIf (CByte OEq 33) (KGoto (LSt 541) KNil) KNil (KBlk (KIf (CByte OLt 62) (KIf (CAnd (CByte OGe 35) (CByte OLe 60)) (KGoto (LSt 541) KNil) KNil KNil) (KIf (CByte OGt 92) (KIf (CAnd (CByte OGe 94) (CByte OLe 126)) (KGoto (LSt 541) KNil) KNil KNil) (KGoto (LSt 541) KNil) KNil) KNil) (KGoto (LSt 0) KNil))));
  (* builder.go:6375 st541 *) ((LSt 541), (KInc (KIf CPe (KGoto (LEofN 541) KNil) KNil KNil)));
  (* builder.go:6379 stCase541 *) ((LCase 541), (KIf (CByte OEq 33) (KGoto (LSt 542) KNil) KNil (KBlk (KIf (CByte OLt 62) (KIf (CAnd (CByte OGe 35) (CByte OLe 60)) (KGoto (LSt 542) KNil) KNil KNil) (KIf (CByte OGt 92) (KIf (CAnd (CByte OGe 94) (CByte OLe 126)) (KGoto (LSt 542) KNil) KNil KNil) (KGoto (LSt 542) KNil) KNil) KNil) (KGoto (LSt 0) KNil))));
  (* builder.go:6396 st542 *) ((LSt 542), (KInc (KIf CPe (KGoto (LEofN 542) KNil) KNil KNil)));
  (* builder.go:6400 stCase542 *) ((LCase 542), (KIf (CByte OEq 33) (KGoto (LSt 543) KNil) KNil (KBlk (KIf (CByte OLt 62) (KIf (CAnd (CByte OGe 35) (CByte OLe 60)) (KGoto (LSt 543) KNil) KNil KNil) (KIf (CByte OGt 92) (KIf (CAnd (CByte OGe 94) (CByte OLe 126)) (KGoto (LSt 543) KNil) KNil KNil) (KGoto (LSt 543) KNil) KNil) KNil) (KGoto (LSt 0) KNil))));
  (* builder.go:6417 st543 *) ((LSt 543), (KInc (KIf CPe (KGoto (LEofN 543) KNil) KNil KNil)));
  (* builder.go:6421 stCase543 *) ((LCase 543), (KIf (CByte OEq 33) (KGoto (LSt 544) KNil) KNil (KBlk (KIf (CByte OLt 62) (KIf (CAnd (CByte OGe 35) (CByte OLe 60)) (KGoto (LSt 544) KNil) KNil KNil) (KIf (CByte OGt 92) (KIf (CAnd (CByte OGe 94) (CByte OLe 126)) (KGoto (LSt 544) KNil) KNil KNil) (KGoto (LSt 544) KNil) KNil) KNil) (KGoto (LSt 0) KNil))));
  (* builder.go:6438 st544 *) ((LSt 544), (KInc (KIf CPe (KGoto (LEofN 544) KNil) KNil KNil)));
  (* builder.go:6442 stCase544 *) ((LCase 544), (KIf (CByte OEq 33) (KGoto (LSt 545) KNil) KNil (KBlk (KIf (CByte OLt 62) (KIf (CAnd (CByte OGe 35) (CByte OLe 60)) (KGoto (LSt 545) KNil) KNil KNil) (KIf (CByte OGt 92) (KIf (CAnd (CByte OGe 94) (CByte OLe 126)) (KGoto (LSt 545) KNil) KNil KNil) (KGoto (LSt 545) KNil) KNil) KNil) (KGoto (LSt 0) KNil))));
  (* builder.go:6459 st545 *) ((LSt 545), (KInc (KIf CPe (KGoto (LEofN 545) KNil) KNil KNil)));
  (* builder.go:6463 stCase545 *) ((LCase 545), (KIf (CByte OEq 33) (KGoto (LSt 546) KNil) KNil (KBlk (KIf (CByte OLt 62) (KIf (CAnd (CByte OGe 35) (CByte OLe 60)) (KGoto (LSt 546) KNil) KNil KNil) (KIf (CByte OGt 92) (KIf (CAnd (CByte OGe 94) (CByte OLe 126)) (KGoto (LSt 546) KNil) KNil KNil) (KGoto (LSt 546) KNil) KNil) KNil) (KGoto (LSt 0) KNil))));
  (* builder.go:6480 st546 *) ((LSt 546), (KInc (KIf CPe (KGoto (LEofN 546) KNil) KNil KNil)));
  (* builder.go:6484 stCase546 *) ((LCase 546), (KIf (CByte OEq 33) (KGoto (LSt 547) KNil) KNil (KBlk (KIf (CByte OLt 62) (KIf (CAnd (CByte OGe 35) (CByte OLe 60)) (KGoto (LSt 547) KNil) KNil KNil) (KIf (CByte OGt 92) (KIf (CAnd (CByte OGe 94) (CByte OLe 126)) (KGoto (LSt 547) KNil) KNil KNil) (KGoto (LSt 547) KNil) KNil) KNil) (KGoto (LSt 0) KNil))));
  (* builder.go:6501 st547 *) ((LSt 547), (KInc (KIf CPe (KGoto (LEofN 547) KNil) KNil KNil)));
  (* builder.go:6505 stCase547 *) ((LCase 547), (KIf (CByte OEq 33) (KGoto (LSt 548) KNil) KNil (KBlk (KIf (CByte OLt 62) (KIf (CAnd (CByte OGe 35) (CByte OLe 60)) (KGoto (LSt 548) KNil) KNil KNil) (KIf (CByte OGt 92) (KIf (CAnd (CByte OGe 94) (CByte OLe 126)) (KGoto (LSt 548) KNil) KNil KNil) (KGoto (LSt 548) KNil) KNil) KNil) (KGoto (LSt 0) KNil))));
  (* builder.go:6522 st548 *) ((LSt 548), (KInc (KIf CPe (KGoto (LEofN 548) KNil) KNil KNil)))
].

(* /repo/rfc5424/builder.go *)
Definition progBuilder_18 : list (label * code act cnd) := [
  (* builder.go:6526 stCase548 *) ((LCase 548), (KIf (CByte OEq 33) (KGoto (LSt 549) KNil) KNil (KBlk (KIf (CByte OLt 62) (KIf (CAnd (CByte OGe 35) (CByte OLe 60)) (KGoto (LSt 549) KNil) KNil KNil) (KIf (CByte OGt 92) (KIf (CAnd (CByte OGe 94) (CByte OLe 126)) (KGoto (LSt 549) KNil) KNil KNil) (KGoto (LSt 549) KNil) KNil) KNil) (KGoto (LSt 0) KNil))));
  (* builder.go:6543 st549 *) ((LSt 549), (KInc (KIf CPe (KGoto (LEofN 549) KNil) KNil KNil)));
  (* builder.go:6547 stCase549 *) ((LCase 549), (KGoto (LSt 0) KNil));
  (* builder.go:6549 stCase43 *) ((LCase 43), (KIf (CByte OEq 33) (KGoto (LTr 43) KNil) KNil (KBlk (KIf (CByte OLt 62) (KIf (CAnd (CByte OGe 35) (CByte OLe 60)) (KGoto (LTr 43) KNil) KNil KNil) (KIf (CByte OGt 92) (KIf (CAnd (CByte OGe 94) (CByte OLe 126)) (KGoto (LTr 43) KNil) KNil KNil) (KGoto (LTr 43) KNil) KNil) KNil) (KGoto (LSt 0) KNil))));
  (* builder.go:6566 tr43 *) ((LTr 43), (KAct BPb (KGoto (LSt 550) KNil)));
  (* builder.go:6571 st550 *) ((LSt 550), (KInc (KIf CPe (KGoto (LEofN 550) KNil) KNil KNil)));
  (* builder.go:6575 stCase550 *) ((LCase 550), (KIf (CByte OEq 33) (KGoto (LSt 551) KNil) KNil (KBlk (KIf (CByte OLt 62) (KIf (CAnd (CByte OGe 35) (CByte OLe 60)) (KGoto (LSt 551) KNil) KNil KNil) (KIf (CByte OGt 92) (KIf (CAnd (CByte OGe 94) (CByte OLe 126)) (KGoto (LSt 551) KNil) KNil KNil) (KGoto (LSt 551) KNil) KNil) KNil) (KGoto (LSt 0) KNil))));
  (* builder.go:6592 st551 *) ((LSt 551), (KInc (KIf CPe (KGoto (LEofN 551) KNil) KNil KNil)));
  (* builder.go:6596 stCase551 *) ((LCase 551), (KIf (CByte OEq 33) (KGoto (LSt 552) KNil) KNil (KBlk (KIf (CByte OLt 62) (KIf (CAnd (CByte OGe 35) (CByte OLe 60)) (KGoto (LSt 552) KNil) KNil KNil) (KIf (CByte OGt 92) (KIf (CAnd (CByte OGe 94) (CByte OLe 126)) (KGoto (LSt 552) KNil) KNil KNil) (KGoto (LSt 552) KNil) KNil) KNil) (KGoto (LSt 0) KNil))));
  (* builder.go:6613 st552 *) ((LSt 552), (KInc (KIf CPe (KGoto (LEofN 552) KNil) KNil KNil)));
  (* builder.go:6617 stCase552 *) ((LCase 552), (KIf (CByte OEq 33) (KGoto (LSt 553) KNil) KNil (KBlk (KIf (CByte OLt 62) (KIf (CAnd (CByte OGe 35) (CByte OLe 60)) (KGoto (LSt 553) KNil) KNil KNil) (KIf (CByte OGt 92) (KIf (CAnd (CByte OGe 94) (CByte OLe 126)) (KGoto (LSt 553) KNil) KNil KNil) (KGoto (LSt 553) KNil) KNil) KNil) (KGoto (LSt 0) KNil))));
  (* builder.go:6634 st553 *) ((LSt 553), (KInc (KIf CPe (KGoto (LEofN 553) KNil) KNil KNil)));
  (* builder.go:6638 stCase553 *) ((LCase 553), (KIf (CByte OEq 33) (KGoto (LSt 554) KNil) KNil (KBlk (KIf (CByte OLt 62) (KIf (CAnd (CByte OGe 35) (CByte OLe 60)) (KGoto (LSt 554) KNil) KNil KNil) (KIf (CByte OGt 92) (KIf (CAnd (CByte OGe 94) (CByte OLe 126)) (KGoto (LSt 554) KNil) KNil KNil) (KGoto (LSt 554) KNil) KNil) KNil) (KGoto (LSt 0) KNil))));
  (* builder.go:6655 st554 *) ((LSt 554), (KInc (KIf CPe (KGoto (LEofN 554) KNil) KNil KNil)));
  (* builder.go:6659 stCase554 *) ((LCase 554), (KIf (CByte OEq 33) (KGoto (LSt 555) KNil) KNil (KBlk (KIf (CByte OLt 62) (KIf (CAnd (CByte OGe 35) (CByte OLe 60)) (KGoto (LSt 555) KNil) KNil KNil) (KIf (CByte OGt 92) (KIf (CAnd (CByte OGe 94) (CByte OLe 126)) (KGoto (LSt 555) KNil) KNil KNil) (KGoto (LSt 555) KNil) KNil) KNil) (KGoto (LSt 0) KNil))));
  (* builder.go:6676 st555 *) ((LSt 555), (KInc (KIf CPe (KGoto (LEofN 555) KNil) KNil KNil)));
  (* builder.go:6680 stCase555 *) ((LCase 555), (KIf (CByte OEq 33) (KGoto (LSt 556) KNil) KNil (KBlk (KIf (CByte OLt 62) (KIf (CAnd (CByte OGe 35) (CByte OLe 60)) (KGoto (LSt 556) KNil) KNil KNil) (KIf (CByte OGt 92) (KIf (CAnd (CByte OGe 94) (CByte OLe 126)) (KGoto (LSt 556) KNil) KNil KNil) (KGoto (LSt 556) KNil) KNil) KNil) (KGoto (LSt 0) KNil))));
  (* builder.go:6697 st556 *) ((LSt 556), (KInc (KIf CPe (KGoto (LEofN 556) KNil) KNil KNil)));
  (* builder.go:6701 stCase556 *) ((LCase 556), (KIf (CByte OEq 33) (KGoto (LSt 557) KNil) KNil (KBlk (KIf (CByte OLt 62) (KIf (CAnd (CByte OGe 35) (CByte OLe 60)) (KGoto (LSt 557) KNil) KNil KNil) (KIf (CByte OGt 92) (KIf (CAnd (CByte OGe 94) (CByte OLe 126)) (KGoto (LSt 557) KNil) KNil KNil) (KGoto (LSt 557) KNil) KNil) KNil) (KGoto (LSt 0) KNil))));
  (* builder.go:6718 st557 *) ((LSt 557), (KInc (KIf CPe (KGoto (LEofN 557) KNil) KNil KNil)));
  (* builder.go:6722 stCase557 *) ((LCase 557), (KIf (CByte OEq 33) (KGoto (LSt 558) KNil) KNil (KBlk (KIf (CByte OLt 62) (KIf (CAnd (CByte OGe 35) (CByte OLe 60)) (KGoto (LSt 558) KNil) KNil KNil) (KIf (CByte OGt 92) (KIf (CAnd (CByte OGe 94) (CByte OLe 126)) (KGoto (LSt 558) KNil) KNil KNil) (KGoto (LSt 558) KNil) KNil) KNil) (KGoto (LSt 0) KNil))));
  (* builder.go:6739 st558 *) ((LSt 558), (KInc (KIf CPe (KGoto (LEofN 558) KNil) KNil KNil)));
  (* builder.go:6743 stCase558 *) ((LCase 558), (KIf (CByte OEq 33) (KGoto (LSt 559) KNil) KNil (KBlk (KIf (CByte OLt 62) (KIf (CAnd (CByte OGe 35) (CByte OLe 60)) (KGoto (LSt 559) KNil) KNil KNil) (KIf (CByte OGt 92) (KIf (CAnd (CByte OGe 94) (CByte OLe 126)) (KGoto (LSt 559) KNil) KNil KNil) (KGoto (LSt 559) KNil) KNil) KNil) (KGoto (LSt 0) KNil))));
  (* builder.go:6760 st559 *) ((LSt 559), (KInc (KIf CPe (KGoto (LEofN 559) KNil) KNil KNil)));
  (* builder.go:6764 stCase559 *) ((LCase 559), (KIf (CByte OEq 33) (KGoto (LSt 560) KNil) KNil (KBlk (KIf (CByte OLt 62) (KIf (CAnd (CByte OGe 35) (CByte OLe 60)) (KGoto (LSt 560) KNil) KNil KNil) (KIf (CByte OGt 92) (KIf (CAnd (CByte OGe 94) (CByte OLe 126)) (KGoto (LSt 560) KNil) KNil KNil) (KGoto (LSt 560) KNil) KNil) KNil) (KGoto (LSt 0) KNil))));
  (* builder.go:6781 st560 *) ((LSt 560), (KInc (KIf CPe (KGoto (LEofN 560) KNil) KNil KNil)));
  (* builder.go:6785 stCase560 *) ((LCase 560), (KIf (CByte OEq 33) (KGoto (LSt 561) KNil) KNil (KBlk (KIf (CByte OLt 62) (KIf (CAnd (CByte OGe 35) (CByte OLe 60)) (KGoto (LSt 561) KNil) KNil KNil) (KIf (CByte OGt 92) (KIf (CAnd (CByte OGe 94) (CByte OLe 126)) (KGoto (LSt 561) KNil) KNil KNil) (KGoto (LSt 561) KNil) KNil) KNil) (KGoto (LSt 0) KNil))));
  (* builder.go:6802 st561 *) ((LSt 561), (KInc (KIf CPe (KGoto (LEofN 561) KNil) KNil KNil)));
  (* builder.go:6806 stCase561 *) ((LCase 561), (KIf (CByte OEq 33) (KGoto (LSt 562) KNil) KNil (KBlk (KIf (CByte OLt 62) (KIf (CAnd (CByte OGe 35) (CByte OLe 60)) (KGoto (LSt 562) KNil) KNil KNil) (KIf (CByte OGt 92) (KIf (CAnd (CByte OGe 94) (CByte OLe 126)) (KGoto (LSt 562) KNil) KNil KNil) (KGoto (LSt 562) KNil) KNil) KNil) (KGoto (LSt 0) KNil))));
  (* builder.go:6823 st562 *) ((LSt 562), (KInc (KIf CPe (KGoto (LEofN 562) KNil) KNil KNil)));
  (* builder.go:6827 stCase562 *) ((LCase 562), (KIf (CByte OEq 33) (KGoto (LSt 563) KNil) KNil (KBlk (KIf (CByte OLt 62) (KIf (CAnd (CByte OGe 35) (CByte OLe 60)) (KGoto (LSt 563) KNil) KNil KNil) (KIf (CByte OGt 92) (KIf (CAnd (CByte OGe 94) (CByte OLe 126)) (KGoto (LSt 563) KNil) KNil KNil) (KGoto (LSt 563) KNil) KNil) KNil) (KGoto (LSt 0) KNil))));
  (* builder.go:6844 st563 *) ((LSt 563), (KInc (KIf CPe (KGoto (LEofN 563) KNil) KNil KNil)));
  (* builder.go:6848 stCase563 *) ((LCase 563), (KIf (CByte OEq 33) (KGoto (LSt 564) KNil) KNil (KBlk (KIf (CByte OLt 62) (KIf (CAnd (CByte OGe 35) (CByte OLe 60)) (KGoto (LSt 564) KNil) KNil KNil) (KIf (CByte OGt 92) (KIf (CAnd (CByte OGe 94) (CByte OLe 126)) (KGoto (LSt 564) KNil) KNil KNil) (KGoto (LSt 564) KNil) KNil) KNil) (KGoto (LSt 0) KNil))));
  (* builder.go:6865 st564 *) ((LSt 564), (KInc (KIf CPe (KGoto (LEofN 564) KNil) KNil KNil)));
  (* builder.go:6869 stCase564 *) ((LCase 564), (KIf (CByte OEq 33) (KGoto (LSt 565) KNil) KNil (KBlk (KIf (CByte OLt 62) (KIf (CAnd (CByte OGe 35) (CByte OLe 60)) (KGoto (LSt 565) KNil) KNil KNil) (KIf (CByte OGt 92) (KIf (CAnd (CByte OGe 94) (CByte OLe 126)) (KGoto (LSt 565) KNil) KNil KNil) (KGoto (LSt 565) KNil) KNil) KNil) (KGoto (LSt 0) KNil))));
  (* builder.go:6886 st565 *) ((LSt 565), (KInc (KIf CPe (KGoto (LEofN 565) KNil) KNil KNil)));
  (* builder.go:6890 stCase565 *) ((LCase 565), (KIf (CByte OEq 33) (KGoto (LSt 566) KNil) KNil (KBlk (KIf (CByte OLt 62) (KIf (CAnd (CByte OGe 35) (CByte OLe 60)) (KGoto (LSt 566) KNil) KNil KNil) (KIf (CByte OGt 92) (KIf (CAnd (CByte OGe 94) (CByte OLe 126)) (KGoto (LSt 566) KNil) KNil KNil) (KGoto (LSt 566) KNil) KNil) KNil) (KGoto (LSt 0) KNil))));
  (* builder.go:6907 st566 *) ((LSt 566), (KInc (KIf CPe (KGoto (LEofN 566) KNil) KNil KNil)));
  (* builder.go:6911 stCase566 *) ((LCase 566), (KIf (CByte OEq 33) (KGoto (LSt 567) KNil) KNil (KBlk (KIf (CByte OLt 62) (KIf (CAnd (CByte OGe 35) (CByte OLe 60)) (KGoto (LSt 567) KNil) KNil KNil) (KIf (CByte OGt 92) (KIf (CAnd (CByte OGe 94) (CByte OLe 126)) (KGoto (LSt 567) KNil) KNil KNil) (KGoto (LSt 567) KNil) KNil) KNil) (KGoto (LSt 0) KNil))));
  (* builder.go:6928 st567 *) ((LSt 567), (KInc (KIf CPe (KGoto (LEofN 567) KNil) KNil KNil)));
  (* builder.go:6932 stCase567 *) ((LCase 567), (KIf (CByte OEq 33) (KGoto (LSt 568) KNil) KNil (KBlk (KIf (CByte OLt 62) (KIf (CAnd (CByte OGe 35) (CByte OLe 60)) (KGoto (LSt 568) KNil) KNil KNil) (KIf (CByte OGt 92) (KIf (CAnd (CByte OGe 94) (CByte OLe 126)) (KGoto (LSt 568) KNil) KNil KNil) (KGoto (LSt 568) KNil) KNil) KNil) (KGoto (LSt 0) KNil))));
  (* builder.go:6949 st568 *) ((LSt 568), (KInc (KIf CPe (KGoto (LEofN 568) KNil) KNil KNil)));
  (* builder.go:6953 stCase568 *) ((LCase 568), (KIf (CByte OEq 33) (KGoto (LSt 569) KNil) KNil (KBlk (KIf (CByte OLt 62) (KIf (CAnd (CByte OGe 35) (CByte OLe 60)) (KGoto (LSt 569) KNil) KNil KNil) (KIf (CByte OGt 92) (KIf (CAnd (CByte OGe 94) (CByte OLe 126)) (KGoto (LSt 569) KNil) KNil KNil) (KGoto (LSt 569) KNil) KNil) KNil) (KGoto (LSt 0) KNil))));
  (* builder.go:6970 st569 *) ((LSt 569), (KInc (KIf CPe (KGoto (LEofN 569) KNil) KNil KNil)));
  (* builder.go:6974 stCase569 *) ((LCase 569), (KIf (CByte OEq 33) (KGoto (LSt 570) KNil) KNil (KBlk (KIf (CByte OLt 62) (KIf (CAnd (CByte OGe 35) (CByte OLe 60)) (KGoto (LSt 570) KNil) KNil KNil) (KIf (CByte OGt 92) (KIf (CAnd (CByte OGe 94) (CByte OLe 126)) (KGoto (LSt 570) KNil) KNil KNil) (KGoto (LSt 570) KNil) KNil) KNil) (KGoto (LSt 0) KNil))));
  (* builder.go:6991 st570 *) ((LSt 570), (KInc (KIf CPe (KGoto (LEofN 570) KNil) KNil KNil)));
  (* builder.go:6995 stCase570 *) ((LCase 570), (KIf (CByte OEq 33) (KGoto (LSt 571) KNil) KNil (KBlk (KIf (CByte OLt 62) (KIf (CAnd (CByte OGe 35) (CByte OLe 60)) (KGoto (LSt 571) KNil) KNil KNil) (KIf (CByte OGt 92) (KIf (CAnd (CByte OGe 94) (CByte OLe 126)) (KGoto (LSt 571) KNil) KNil KNil) (KGoto (LSt 571) KNil) KNil) KNil) (KGoto (LSt 0) KNil))));
  (* builder.go:7012 st571 *) ((LSt 571), (KInc (KIf CPe (KGoto (LEofN 571) KNil) KNil KNil)));
  (* builder.go:7016 stCase571 *) ((LCase 571), (KIf (CByte OEq 33) (KGoto (LSt 572) KNil) KNil (KBlk (KIf (CByte OLt 62) (KIf (CAnd (CByte OGe 35) (CByte OLe 60)) (KGoto (LSt 572) KNil) KNil KNil) (KIf (CByte OGt 92) (KIf (CAnd (CByte OGe 94) (CByte OLe 126)) (KGoto (LSt 572) KNil) KNil KNil) (KGoto (LSt 572) KNil) KNil) KNil) (KGoto (LSt 0) KNil))));
  (* builder.go:7033 st572 *) ((LSt 572), (KInc (KIf CPe (KGoto (LEofN 572) KNil) KNil KNil)));
  (* builder.go:7037 stCase572 *) ((LCase 572), (KIf (CByte OEq 33) (KGoto (LSt 573) KNil) KNil (KBlk (KIf (CByte OLt 62) (KIf (CAnd (CByte OGe 35) (CByte OLe 60)) (KGoto (LSt 573) KNil) KNil KNil) (KIf (CByte OGt 92) (KIf (CAnd (CByte OGe 94) (CByte OLe 126)) (KGoto (LSt 573) KNil) KNil KNil) (KGoto (LSt 573) KNil) KNil) KNil) (KGoto (LSt 0) KNil))));
  (* builder.go:7054 st573 *) ((LSt 573), (KInc (KIf CPe (KGoto (LEofN 573) KNil) KNil KNil)));
  (* builder.go:7058 stCase573 *) ((LCase 573), (KIf (CByte OEq 33) (KGoto (LSt 574) KNil) KNil (KBlk (KIf (CByte OLt 62) (KIf (CAnd (CByte OGe 35) (CByte OLe 60)) (KGoto (LSt 574) KNil) KNil KNil) (KIf (CByte OGt 92) (KIf (CAnd (CByte OGe 94) (CByte OLe 126)) (KGoto (LSt 574) KNil) KNil KNil) (KGoto (LSt 574) KNil) KNil) KNil) (KGoto (LSt 0) KNil))));
  (* builder.go:7075 st574 *) ((LSt 574), (KInc (KIf CPe (KGoto (LEofN 574) KNil) KNil KNil)));
  (* builder.go:7079 stCase574 *) ((LCase 574), (KIf (CByte OEq 33) (KGoto (LSt 575) KNil) KNil (KBlk (KIf (CByte OLt 62) (KIf (CAnd (CByte OGe 35) (CByte OLe 60)) (KGoto (LSt 575) KNil) KNil KNil) (KIf (CByte OGt 92) (KIf (CAnd (CByte OGe 94) (CByte OLe 126)) (KGoto (LSt 575) KNil) KNil KNil) (KGoto (LSt 575) KNil) KNil) KNil) (KGoto (LSt 0) KNil))));
  (* builder.go:7096 st575 *) ((LSt 575), (KInc (KIf CPe (KGoto (LEofN 575) KNil) KNil KNil)));
  (* builder.go:7100 stCase575 *) ((LCase 575), (KIf (CByte OEq 33) (KGoto (LSt 576) KNil) KNil (KBlk (KIf (CByte OLt 62) (KIf (CAnd (CByte OGe 35) (CByte OLe 60)) (KGoto (LSt 576) KNil) KNil KNil) (KIf (CByte OGt 92) (KIf (CAnd (CByte OGe 94) (CByte OLe 126)) (KGoto (LSt 576) KNil) KNil KNil) (KGoto (LSt 576) KNil) KNil) KNil) (KGoto (LSt 0) KNil))));
  (* builder.go:7117 st576 *) ((LSt 576), (KInc (KIf CPe (KGoto (LEofN 576) KNil) KNil KNil)));
  (* builder.go:7121 stCase576 *) ((LCase 576), (KIf (CByte OEq 33) (KGoto (LSt 577) KNil) KNil (KBlk (KIf (CByte OLt 62) (KIf (CAnd (CByte OGe 35) (CByte OLe 60)) (KGoto (LSt 577) KNil) KNil KNil) (KIf (CByte OGt 92) (KIf (CAnd (CByte OGe 94) (CByte OLe 126)) (KGoto (LSt 577) KNil) KNil KNil) (KGoto (LSt 577) KNil) KNil) KNil) (KGoto (LSt 0) KNil))));
  (* builder.go:7138 st577 *) ((LSt 577), (KInc (KIf CPe (KGoto (LEofN 577) KNil) KNil KNil)))
].

(* /repo/rfc5424/builder.go *)
Definition progBuilder_19 : list (label * code act cnd) := [
  (* builder.go:7142 stCase577 *) ((LCase 577), (KIf (CByte OEq 33) (KGoto (LSt 578) KNil) KNil (KBlk (KIf (CByte OLt 62) (KIf (CAnd (CByte OGe 35) (CByte OLe 60)) (KGoto (LSt 578) KNil) KNil KNil) (KIf (CByte OGt 92) (KIf (CAnd (CByte OGe 94) (CByte OLe 126)) (KGoto (LSt 578) KNil) KNil KNil) (KGoto (LSt 578) KNil) KNil) KNil) (KGoto (LSt 0) KNil))));
  (* builder.go:7159 st578 *) ((LSt 578), (KInc (KIf CPe (KGoto (LEofN 578) KNil) KNil KNil)));
  (* builder.go:7163 stCase578 *) ((LCase 578), (KIf (CByte OEq 33) (KGoto (LSt 579) KNil) KNil (KBlk (KIf (CByte OLt 62) (KIf (CAnd (CByte OGe 35) (CByte OLe 60)) (KGoto (LSt 579) KNil) KNil KNil) (KIf (CByte OGt 92) (KIf (CAnd (CByte OGe 94) (CByte OLe 126)) (KGoto (LSt 579) KNil) KNil KNil) (KGoto (LSt 579) KNil) KNil) KNil) (KGoto (LSt 0) KNil))));
  (* builder.go:7180 st579 *) ((LSt 579), (KInc (KIf CPe (KGoto (LEofN 579) KNil) KNil KNil)));
  (* builder.go:7184 stCase579 *) ((LCase 579), (KIf (CByte OEq 33) (KGoto (LSt 580) KNil) KNil (KBlk (KIf (CByte OLt 62) (KIf (CAnd (CByte OGe 35) (CByte OLe 60)) (KGoto (LSt 580) KNil) KNil KNil) (KIf (CByte OGt 92) (KIf (CAnd (CByte OGe 94) (CByte OLe 126)) (KGoto (LSt 580) KNil) KNil KNil) (KGoto (LSt 580) KNil) KNil) KNil) (KGoto (LSt 0) KNil))));
  (* builder.go:7201 st580 *) ((LSt 580), (KInc (KIf CPe (KGoto (LEofN 580) KNil) KNil KNil)));
  (* builder.go:7205 stCase580 *) ((LCase 580), (KIf (CByte OEq 33) (KGoto (LSt 581) KNil) KNil (KBlk (KIf (CByte OLt 62) (KIf (CAnd (CByte OGe 35) (CByte OLe 60)) (KGoto (LSt 581) KNil) KNil KNil) (KIf (CByte OGt 92) (KIf (CAnd (CByte OGe 94) (CByte OLe 126)) (KGoto (LSt 581) KNil) KNil KNil) (KGoto (LSt 581) KNil) KNil) KNil) (KGoto (LSt 0) KNil))));
  (* builder.go:7222 st581 *) ((LSt 581), (KInc (KIf CPe (KGoto (LEofN 581) KNil) KNil KNil)));
  (* builder.go:7226 stCase581 *) ((LCase 581), (KGoto (LSt 0) KNil));
  (* builder.go:7228 stCase582 *) ((LCase 582), (KBlk (KIf (CByte OEq 34) (KGoto (LSt 0) KNil) (KIf (CByte OEq 92) (KGoto (LTr 571) KNil) (KIf (CByte OEq 93) (KGoto (LSt 0) KNil) (KIf (CByte OEq 224) (KGoto (LTr 573) KNil) (KIf (CByte OEq 237) (KGoto (LTr 575) KNil) (KIf (CByte OEq 240) (KGoto (LTr 576) KNil) (KIf (CByte OEq 244) (KGoto (LTr 578) KNil) KNil KNil) KNil) KNil) KNil) KNil) KNil) KNil) (KBlk (KIf (CByte OLt 225) (KBlk (KIf (CByte OGt 193) (KIf (CAnd (CByte OGe 194) (CByte OLe 223)) (KGoto (LTr 572) KNil) KNil KNil) (KIf (CByte OGe 128) (KGoto (LSt 0) KNil) KNil KNil) KNil) KNil) (KIf (CByte OGt 239) (KBlk (KIf (CByte OGt 243) (KIf (CByte OGe 245) (KGoto (LSt 0) KNil) KNil KNil) (KIf (CByte OGe 241) (KGoto (LTr 577) KNil) KNil KNil) KNil) KNil) (KGoto (LTr 574) KNil) KNil) KNil) (KGoto (LTr 570) KNil))));
  (* builder.go:7268 tr570 *) ((LTr 570), (KAct BPb (KGoto (LSt 583) KNil)));
  (* builder.go:7273 st583 *) ((LSt 583), (KInc (KIf CPe (KGoto (LEofN 583) KNil) KNil KNil)));
  (* builder.go:7277 stCase583 *) ((LCase 583), (KBlk (KIf (CByte OEq 34) (KGoto (LSt 0) KNil) (KIf (CByte OEq 92) (KGoto (LTr 579) KNil) (KIf (CByte OEq 93) (KGoto (LSt 0) KNil) (KIf (CByte OEq 224) (KGoto (LSt 46) KNil) (KIf (CByte OEq 237) (KGoto (LSt 48) KNil) (KIf (CByte OEq 240) (KGoto (LSt 49) KNil) (KIf (CByte OEq 244) (KGoto (LSt 51) KNil) KNil KNil) KNil) KNil) KNil) KNil) KNil) KNil) (KBlk (KIf (CByte OLt 225) (KBlk (KIf (CByte OGt 193) (KIf (CAnd (CByte OGe 194) (CByte OLe 223)) (KGoto (LSt 45) KNil) KNil KNil) (KIf (CByte OGe 128) (KGoto (LSt 0) KNil) KNil KNil) KNil) KNil) (KIf (CByte OGt 239) (KBlk (KIf (CByte OGt 243) (KIf (CByte OGe 245) (KGoto (LSt 0) KNil) KNil KNil) (KIf (CByte OGe 241) (KGoto (LSt 50) KNil) KNil KNil) KNil) KNil) (KGoto (LSt 47) KNil) KNil) KNil) (KGoto (LSt 583) KNil))));
  (* builder.go:7317 tr571 *) ((LTr 571), (KAct BPb (KAct BBackAppend (KGoto (LSt 44) KNil))));
  (* builder.go:7324 tr579 *) ((LTr 579), (KAct BBackAppend (KGoto (LSt 44) KNil)));
  (* builder.go:7329 st44 *) ((LSt 44), (KInc (KIf CPe (KGoto (LEofN 44) KNil) KNil KNil)));
  (* builder.go:7333 stCase44 *) ((LCase 44), (KIf (CByte OEq 34) (KGoto (LSt 583) KNil) KNil (KIf (CAnd (CByte OGe 92) (CByte OLe 93)) (KGoto (LSt 583) KNil) KNil (KGoto (LSt 0) KNil))));
  (* builder.go:7341 tr572 *) ((LTr 572), (KAct BPb (KGoto (LSt 45) KNil)));
  (* builder.go:7346 st45 *) ((LSt 45), (KInc (KIf CPe (KGoto (LEofN 45) KNil) KNil KNil)));
  (* builder.go:7350 stCase45 *) ((LCase 45), (KIf (CAnd (CByte OGe 128) (CByte OLe 191)) (KGoto (LSt 583) KNil) KNil (KGoto (LSt 0) KNil)));
  (* builder.go:7355 tr573 *) ((LTr 573), (KAct BPb (KGoto (LSt 46) KNil)));
  (* builder.go:7360 st46 *) ((LSt 46), (KInc (KIf CPe (KGoto (LEofN 46) KNil) KNil KNil)));
  (* builder.go:7364 stCase46 *) ((LCase 46), (KIf (CAnd (CByte OGe 160) (CByte OLe 191)) (KGoto (LSt 45) KNil) KNil (KGoto (LSt 0) KNil)));
  (* builder.go:7369 tr574 *) ((LTr 574), (KAct BPb (KGoto (LSt 47) KNil)));
  (* builder.go:7374 st47 *) ((LSt 47), (KInc (KIf CPe (KGoto (LEofN 47) KNil) KNil KNil)));
  (* builder.go:7378 stCase47 *) ((LCase 47), (KIf (CAnd (CByte OGe 128) (CByte OLe 191)) (KGoto (LSt 45) KNil) KNil (KGoto (LSt 0) KNil)));
  (* builder.go:7383 tr575 *) ((LTr 575), (KAct BPb (KGoto (LSt 48) KNil)));
  (* builder.go:7388 st48 *) ((LSt 48), (KInc (KIf CPe (KGoto (LEofN 48) KNil) KNil KNil)));
  (* builder.go:7392 stCase48 *) ((LCase 48), (KIf (CAnd (CByte OGe 128) (CByte OLe 159)) (KGoto (LSt 45) KNil) KNil (KGoto (LSt 0) KNil)));
  (* builder.go:7397 tr576 *) ((LTr 576), (KAct BPb (KGoto (LSt 49) KNil)));
  (* builder.go:7402 st49 *) ((LSt 49), (KInc (KIf CPe (KGoto (LEofN 49) KNil) KNil KNil)));
  (* builder.go:7406 stCase49 *) ((LCase 49), (KIf (CAnd (CByte OGe 144) (CByte OLe 191)) (KGoto (LSt 47) KNil) KNil (KGoto (LSt 0) KNil)));
  (* builder.go:7411 tr577 *) ((LTr 577), (KAct BPb (KGoto (LSt 50) KNil)));
  (* builder.go:7416 st50 *) ((LSt 50), (KInc (KIf CPe (KGoto (LEofN 50) KNil) KNil KNil)));
  (* builder.go:7420 stCase50 *) ((LCase 50), (KIf (CAnd (CByte OGe 128) (CByte OLe 191)) (KGoto (LSt 47) KNil) KNil (KGoto (LSt 0) KNil)));
  (* builder.go:7425 tr578 *) ((LTr 578), (KAct BPb (KGoto (LSt 51) KNil)));
  (* builder.go:7430 st51 *) ((LSt 51), (KInc (KIf CPe (KGoto (LEofN 51) KNil) KNil KNil)));
  (* builder.go:7434 stCase51 *) ((LCase 51), (KIf (CAnd (CByte OGe 128) (CByte OLe 143)) (KGoto (LSt 47) KNil) KNil (KGoto (LSt 0) KNil)));
  (* builder.go:7439 stOut *) (LStOut, KNil);
  (* builder.go:7440 _testEof53 *) ((LEofN 53), (KCs 53 (KGoto LEof KNil)));
  (* builder.go:7443 _testEof2 *) ((LEofN 2), (KCs 2 (KGoto LEof KNil)));
  (* builder.go:7446 _testEof3 *) ((LEofN 3), (KCs 3 (KGoto LEof KNil)));
  (* builder.go:7449 _testEof4 *) ((LEofN 4), (KCs 4 (KGoto LEof KNil)));
  (* builder.go:7452 _testEof5 *) ((LEofN 5), (KCs 5 (KGoto LEof KNil)));
  (* builder.go:7455 _testEof6 *) ((LEofN 6), (KCs 6 (KGoto LEof KNil)));
  (* builder.go:7458 _testEof7 *) ((LEofN 7), (KCs 7 (KGoto LEof KNil)));
  (* builder.go:7461 _testEof8 *) ((LEofN 8), (KCs 8 (KGoto LEof KNil)));
  (* builder.go:7464 _testEof9 *) ((LEofN 9), (KCs 9 (KGoto LEof KNil)));
  (* builder.go:7467 _testEof10 *) ((LEofN 10), (KCs 10 (KGoto LEof KNil)));
  (* builder.go:7470 _testEof11 *) ((LEofN 11), (KCs 11 (KGoto LEof KNil)));
  (* builder.go:7473 _testEof12 *) ((LEofN 12), (KCs 12 (KGoto LEof KNil)));
  (* builder.go:7476 _testEof13 *) ((LEofN 13), (KCs 13 (KGoto LEof KNil)));
  (* builder.go:7479 _testEof14 *) ((LEofN 14), (KCs 14 (KGoto LEof KNil)));
  (* builder.go:7482 _testEof15 *) ((LEofN 15), (KCs 15 (KGoto LEof KNil)));
  (* builder.go:7485 _testEof16 *) ((LEofN 16), (KCs 16 (KGoto LEof KNil)));
  (* builder.go:7488 _testEof17 *) ((LEofN 17), (KCs 17 (KGoto LEof KNil)));
  (* builder.go:7491 _testEof18 *) ((LEofN 18), (KCs 18 (KGoto LEof KNil)));
  (* builder.go:7494 _testEof19 *) ((LEofN 19), (KCs 19 (KGoto LEof KNil)));
  (* builder.go:7497 _testEof20 *) ((LEofN 20), (KCs 20 (KGoto LEof KNil)));
  (* builder.go:7500 _testEof21 *) ((LEofN 21), (KCs 21 (KGoto LEof KNil)))
].

(* /repo/rfc5424/builder.go *)
Definition progBuilder_20 : list (label * code act cnd) := [
  (* builder.go:7503 _testEof22 *) ((LEofN 22), (KCs 22 (KGoto LEof KNil)));
  (* builder.go:7506 _testEof23 *) ((LEofN 23), (KCs 23 (KGoto LEof KNil)));
  (* builder.go:7509 _testEof24 *) ((LEofN 24), (KCs 24 (KGoto LEof KNil)));
  (* builder.go:7512 _testEof25 *) ((LEofN 25), (KCs 25 (KGoto LEof KNil)));
  (* builder.go:7515 _testEof54 *) ((LEofN 54), (KCs 54 (KGoto LEof KNil)));
  (* builder.go:7518 _testEof26 *) ((LEofN 26), (KCs 26 (KGoto LEof KNil)));
  (* builder.go:7521 _testEof27 *) ((LEofN 27), (KCs 27 (KGoto LEof KNil)));
  (* builder.go:7524 _testEof28 *) ((LEofN 28), (KCs 28 (KGoto LEof KNil)));
  (* builder.go:7527 _testEof29 *) ((LEofN 29), (KCs 29 (KGoto LEof KNil)));
  (* builder.go:7530 _testEof30 *) ((LEofN 30), (KCs 30 (KGoto LEof KNil)));
  (* builder.go:7533 _testEof31 *) ((LEofN 31), (KCs 31 (KGoto LEof KNil)));
  (* builder.go:7536 _testEof32 *) ((LEofN 32), (KCs 32 (KGoto LEof KNil)));
  (* builder.go:7539 _testEof33 *) ((LEofN 33), (KCs 33 (KGoto LEof KNil)));
  (* builder.go:7542 _testEof34 *) ((LEofN 34), (KCs 34 (KGoto LEof KNil)));
  (* builder.go:7545 _testEof35 *) ((LEofN 35), (KCs 35 (KGoto LEof KNil)));
  (* builder.go:7548 _testEof36 *) ((LEofN 36), (KCs 36 (KGoto LEof KNil)));
  (* builder.go:7551 _testEof37 *) ((LEofN 37), (KCs 37 (KGoto LEof KNil)));
  (* builder.go:7554 _testEof55 *) ((LEofN 55), (KCs 55 (KGoto LEof KNil)));
  (* builder.go:7557 _testEof56 *) ((LEofN 56), (KCs 56 (KGoto LEof KNil)));
  (* builder.go:7560 _testEof57 *) ((LEofN 57), (KCs 57 (KGoto LEof KNil)));
  (* builder.go:7563 _testEof58 *) ((LEofN 58), (KCs 58 (KGoto LEof KNil)));
  (* builder.go:7566 _testEof59 *) ((LEofN 59), (KCs 59 (KGoto LEof KNil)));
  (* builder.go:7569 _testEof60 *) ((LEofN 60), (KCs 60 (KGoto LEof KNil)));
  (* builder.go:7572 _testEof61 *) ((LEofN 61), (KCs 61 (KGoto LEof KNil)));
  (* builder.go:7575 _testEof62 *) ((LEofN 62), (KCs 62 (KGoto LEof KNil)));
  (* builder.go:7578 _testEof63 *) ((LEofN 63), (KCs 63 (KGoto LEof KNil)));
  (* builder.go:7581 _testEof64 *) ((LEofN 64), (KCs 64 (KGoto LEof KNil)));
  (* builder.go:7584 _testEof65 *) ((LEofN 65), (KCs 65 (KGoto LEof KNil)));
  (* builder.go:7587 _testEof66 *) ((LEofN 66), (KCs 66 (KGoto LEof KNil)));
  (* builder.go:7590 _testEof67 *) ((LEofN 67), (KCs 67 (KGoto LEof KNil)));
  (* builder.go:7593 _testEof68 *) ((LEofN 68), (KCs 68 (KGoto LEof KNil)));
  (* builder.go:7596 _testEof69 *) ((LEofN 69), (KCs 69 (KGoto LEof KNil)));
  (* builder.go:7599 _testEof70 *) ((LEofN 70), (KCs 70 (KGoto LEof KNil)));
  (* builder.go:7602 _testEof71 *) ((LEofN 71), (KCs 71 (KGoto LEof KNil)));
  (* builder.go:7605 _testEof72 *) ((LEofN 72), (KCs 72 (KGoto LEof KNil)));
  (* builder.go:7608 _testEof73 *) ((LEofN 73), (KCs 73 (KGoto LEof KNil)));
  (* builder.go:7611 _testEof74 *) ((LEofN 74), (KCs 74 (KGoto LEof KNil)));
  (* builder.go:7614 _testEof75 *) ((LEofN 75), (KCs 75 (KGoto LEof KNil)));
  (* builder.go:7617 _testEof76 *) ((LEofN 76), (KCs 76 (KGoto LEof KNil)));
  (* builder.go:7620 _testEof77 *) ((LEofN 77), (KCs 77 (KGoto LEof KNil)));
  (* builder.go:7623 _testEof78 *) ((LEofN 78), (KCs 78 (KGoto LEof KNil)));
  (* builder.go:7626 _testEof79 *) ((LEofN 79), (KCs 79 (KGoto LEof KNil)));
  (* builder.go:7629 _testEof80 *) ((LEofN 80), (KCs 80 (KGoto LEof KNil)));
  (* builder.go:7632 _testEof81 *) ((LEofN 81), (KCs 81 (KGoto LEof KNil)));
  (* builder.go:7635 _testEof82 *) ((LEofN 82), (KCs 82 (KGoto LEof KNil)));
  (* builder.go:7638 _testEof83 *) ((LEofN 83), (KCs 83 (KGoto LEof KNil)));
  (* builder.go:7641 _testEof84 *) ((LEofN 84), (KCs 84 (KGoto LEof KNil)));
  (* builder.go:7644 _testEof85 *) ((LEofN 85), (KCs 85 (KGoto LEof KNil)));
  (* builder.go:7647 _testEof86 *) ((LEofN 86), (KCs 86 (KGoto LEof KNil)));
  (* builder.go:7650 _testEof87 *) ((LEofN 87), (KCs 87 (KGoto LEof KNil)));
  (* builder.go:7653 _testEof88 *) ((LEofN 88), (KCs 88 (KGoto LEof KNil)));
  (* builder.go:7656 _testEof89 *) ((LEofN 89), (KCs 89 (KGoto LEof KNil)));
  (* builder.go:7659 _testEof90 *) ((LEofN 90), (KCs 90 (KGoto LEof KNil)));
  (* builder.go:7662 _testEof91 *) ((LEofN 91), (KCs 91 (KGoto LEof KNil)));
  (* builder.go:7665 _testEof92 *) ((LEofN 92), (KCs 92 (KGoto LEof KNil)));
  (* builder.go:7668 _testEof93 *) ((LEofN 93), (KCs 93 (KGoto LEof KNil)));
  (* builder.go:7671 _testEof94 *) ((LEofN 94), (KCs 94 (KGoto LEof KNil)));
  (* builder.go:7674 _testEof95 *) ((LEofN 95), (KCs 95 (KGoto LEof KNil)));
  (* builder.go:7677 _testEof96 *) ((LEofN 96), (KCs 96 (KGoto LEof KNil)));
  (* builder.go:7680 _testEof97 *) ((LEofN 97), (KCs 97 (KGoto LEof KNil)))
].

(* /repo/rfc5424/builder.go *)
Definition progBuilder_21 : list (label * code act cnd) := [
  (* builder.go:7683 _testEof98 *) ((LEofN 98), (KCs 98 (KGoto LEof KNil)));
  (* builder.go:7686 _testEof99 *) ((LEofN 99), (KCs 99 (KGoto LEof KNil)));
  (* builder.go:7689 _testEof100 *) ((LEofN 100), (KCs 100 (KGoto LEof KNil)));
  (* builder.go:7692 _testEof101 *) ((LEofN 101), (KCs 101 (KGoto LEof KNil)));
  (* builder.go:7695 _testEof102 *) ((LEofN 102), (KCs 102 (KGoto LEof KNil)));
  (* builder.go:7698 _testEof103 *) ((LEofN 103), (KCs 103 (KGoto LEof KNil)));
  (* builder.go:7701 _testEof104 *) ((LEofN 104), (KCs 104 (KGoto LEof KNil)));
  (* builder.go:7704 _testEof105 *) ((LEofN 105), (KCs 105 (KGoto LEof KNil)));
  (* builder.go:7707 _testEof106 *) ((LEofN 106), (KCs 106 (KGoto LEof KNil)));
  (* builder.go:7710 _testEof107 *) ((LEofN 107), (KCs 107 (KGoto LEof KNil)));
  (* builder.go:7713 _testEof108 *) ((LEofN 108), (KCs 108 (KGoto LEof KNil)));
  (* builder.go:7716 _testEof109 *) ((LEofN 109), (KCs 109 (KGoto LEof KNil)));
  (* builder.go:7719 _testEof110 *) ((LEofN 110), (KCs 110 (KGoto LEof KNil)));
  (* builder.go:7722 _testEof111 *) ((LEofN 111), (KCs 111 (KGoto LEof KNil)));
  (* builder.go:7725 _testEof112 *) ((LEofN 112), (KCs 112 (KGoto LEof KNil)));
  (* builder.go:7728 _testEof113 *) ((LEofN 113), (KCs 113 (KGoto LEof KNil)));
  (* builder.go:7731 _testEof114 *) ((LEofN 114), (KCs 114 (KGoto LEof KNil)));
  (* builder.go:7734 _testEof115 *) ((LEofN 115), (KCs 115 (KGoto LEof KNil)));
  (* builder.go:7737 _testEof116 *) ((LEofN 116), (KCs 116 (KGoto LEof KNil)));
  (* builder.go:7740 _testEof117 *) ((LEofN 117), (KCs 117 (KGoto LEof KNil)));
  (* builder.go:7743 _testEof118 *) ((LEofN 118), (KCs 118 (KGoto LEof KNil)));
  (* builder.go:7746 _testEof119 *) ((LEofN 119), (KCs 119 (KGoto LEof KNil)));
  (* builder.go:7749 _testEof120 *) ((LEofN 120), (KCs 120 (KGoto LEof KNil)));
  (* builder.go:7752 _testEof121 *) ((LEofN 121), (KCs 121 (KGoto LEof KNil)));
  (* builder.go:7755 _testEof122 *) ((LEofN 122), (KCs 122 (KGoto LEof KNil)));
  (* builder.go:7758 _testEof123 *) ((LEofN 123), (KCs 123 (KGoto LEof KNil)));
  (* builder.go:7761 _testEof124 *) ((LEofN 124), (KCs 124 (KGoto LEof KNil)));
  (* builder.go:7764 _testEof125 *) ((LEofN 125), (KCs 125 (KGoto LEof KNil)));
  (* builder.go:7767 _testEof126 *) ((LEofN 126), (KCs 126 (KGoto LEof KNil)));
  (* builder.go:7770 _testEof127 *) ((LEofN 127), (KCs 127 (KGoto LEof KNil)));
  (* builder.go:7773 _testEof128 *) ((LEofN 128), (KCs 128 (KGoto LEof KNil)));
  (* builder.go:7776 _testEof129 *) ((LEofN 129), (KCs 129 (KGoto LEof KNil)));
  (* builder.go:7779 _testEof130 *) ((LEofN 130), (KCs 130 (KGoto LEof KNil)));
  (* builder.go:7782 _testEof131 *) ((LEofN 131), (KCs 131 (KGoto LEof KNil)));
  (* builder.go:7785 _testEof132 *) ((LEofN 132), (KCs 132 (KGoto LEof KNil)));
  (* builder.go:7788 _testEof133 *) ((LEofN 133), (KCs 133 (KGoto LEof KNil)));
  (* builder.go:7791 _testEof134 *) ((LEofN 134), (KCs 134 (KGoto LEof KNil)));
  (* builder.go:7794 _testEof135 *) ((LEofN 135), (KCs 135 (KGoto LEof KNil)));
  (* builder.go:7797 _testEof136 *) ((LEofN 136), (KCs 136 (KGoto LEof KNil)));
  (* builder.go:7800 _testEof137 *) ((LEofN 137), (KCs 137 (KGoto LEof KNil)));
  (* builder.go:7803 _testEof138 *) ((LEofN 138), (KCs 138 (KGoto LEof KNil)));
  (* builder.go:7806 _testEof139 *) ((LEofN 139), (KCs 139 (KGoto LEof KNil)));
  (* builder.go:7809 _testEof140 *) ((LEofN 140), (KCs 140 (KGoto LEof KNil)));
  (* builder.go:7812 _testEof141 *) ((LEofN 141), (KCs 141 (KGoto LEof KNil)));
  (* builder.go:7815 _testEof142 *) ((LEofN 142), (KCs 142 (KGoto LEof KNil)));
  (* builder.go:7818 _testEof143 *) ((LEofN 143), (KCs 143 (KGoto LEof KNil)));
  (* builder.go:7821 _testEof144 *) ((LEofN 144), (KCs 144 (KGoto LEof KNil)));
  (* builder.go:7824 _testEof145 *) ((LEofN 145), (KCs 145 (KGoto LEof KNil)));
  (* builder.go:7827 _testEof146 *) ((LEofN 146), (KCs 146 (KGoto LEof KNil)));
  (* builder.go:7830 _testEof147 *) ((LEofN 147), (KCs 147 (KGoto LEof KNil)));
  (* builder.go:7833 _testEof148 *) ((LEofN 148), (KCs 148 (KGoto LEof KNil)));
  (* builder.go:7836 _testEof149 *) ((LEofN 149), (KCs 149 (KGoto LEof KNil)));
  (* builder.go:7839 _testEof150 *) ((LEofN 150), (KCs 150 (KGoto LEof KNil)));
  (* builder.go:7842 _testEof151 *) ((LEofN 151), (KCs 151 (KGoto LEof KNil)));
  (* builder.go:7845 _testEof152 *) ((LEofN 152), (KCs 152 (KGoto LEof KNil)));
  (* builder.go:7848 _testEof153 *) ((LEofN 153), (KCs 153 (KGoto LEof KNil)));
  (* builder.go:7851 _testEof154 *) ((LEofN 154), (KCs 154 (KGoto LEof KNil)));
  (* builder.go:7854 _testEof155 *) ((LEofN 155), (KCs 155 (KGoto LEof KNil)));
  (* builder.go:7857 _testEof156 *) ((LEofN 156), (KCs 156 (KGoto LEof KNil)));
  (* builder.go:7860 _testEof157 *) ((LEofN 157), (KCs 157 (KGoto LEof KNil)))
].

(* /repo/rfc5424/builder.go *)
Definition progBuilder_22 : list (label * code act cnd) := [
  (* builder.go:7863 _testEof158 *) ((LEofN 158), (KCs 158 (KGoto LEof KNil)));
  (* builder.go:7866 _testEof159 *) ((LEofN 159), (KCs 159 (KGoto LEof KNil)));
  (* builder.go:7869 _testEof160 *) ((LEofN 160), (KCs 160 (KGoto LEof KNil)));
  (* builder.go:7872 _testEof161 *) ((LEofN 161), (KCs 161 (KGoto LEof KNil)));
  (* builder.go:7875 _testEof162 *) ((LEofN 162), (KCs 162 (KGoto LEof KNil)));
  (* builder.go:7878 _testEof163 *) ((LEofN 163), (KCs 163 (KGoto LEof KNil)));
  (* builder.go:7881 _testEof164 *) ((LEofN 164), (KCs 164 (KGoto LEof KNil)));
  (* builder.go:7884 _testEof165 *) ((LEofN 165), (KCs 165 (KGoto LEof KNil)));
  (* builder.go:7887 _testEof166 *) ((LEofN 166), (KCs 166 (KGoto LEof KNil)));
  (* builder.go:7890 _testEof167 *) ((LEofN 167), (KCs 167 (KGoto LEof KNil)));
  (* builder.go:7893 _testEof168 *) ((LEofN 168), (KCs 168 (KGoto LEof KNil)));
  (* builder.go:7896 _testEof169 *) ((LEofN 169), (KCs 169 (KGoto LEof KNil)));
  (* builder.go:7899 _testEof170 *) ((LEofN 170), (KCs 170 (KGoto LEof KNil)));
  (* builder.go:7902 _testEof171 *) ((LEofN 171), (KCs 171 (KGoto LEof KNil)));
  (* builder.go:7905 _testEof172 *) ((LEofN 172), (KCs 172 (KGoto LEof KNil)));
  (* builder.go:7908 _testEof173 *) ((LEofN 173), (KCs 173 (KGoto LEof KNil)));
  (* builder.go:7911 _testEof174 *) ((LEofN 174), (KCs 174 (KGoto LEof KNil)));
  (* builder.go:7914 _testEof175 *) ((LEofN 175), (KCs 175 (KGoto LEof KNil)));
  (* builder.go:7917 _testEof176 *) ((LEofN 176), (KCs 176 (KGoto LEof KNil)));
  (* builder.go:7920 _testEof177 *) ((LEofN 177), (KCs 177 (KGoto LEof KNil)));
  (* builder.go:7923 _testEof178 *) ((LEofN 178), (KCs 178 (KGoto LEof KNil)));
  (* builder.go:7926 _testEof179 *) ((LEofN 179), (KCs 179 (KGoto LEof KNil)));
  (* builder.go:7929 _testEof180 *) ((LEofN 180), (KCs 180 (KGoto LEof KNil)));
  (* builder.go:7932 _testEof181 *) ((LEofN 181), (KCs 181 (KGoto LEof KNil)));
  (* builder.go:7935 _testEof182 *) ((LEofN 182), (KCs 182 (KGoto LEof KNil)));
  (* builder.go:7938 _testEof183 *) ((LEofN 183), (KCs 183 (KGoto LEof KNil)));
  (* builder.go:7941 _testEof184 *) ((LEofN 184), (KCs 184 (KGoto LEof KNil)));
  (* builder.go:7944 _testEof185 *) ((LEofN 185), (KCs 185 (KGoto LEof KNil)));
  (* builder.go:7947 _testEof186 *) ((LEofN 186), (KCs 186 (KGoto LEof KNil)));
  (* builder.go:7950 _testEof187 *) ((LEofN 187), (KCs 187 (KGoto LEof KNil)));
  (* builder.go:7953 _testEof188 *) ((LEofN 188), (KCs 188 (KGoto LEof KNil)));
  (* builder.go:7956 _testEof189 *) ((LEofN 189), (KCs 189 (KGoto LEof KNil)));
  (* builder.go:7959 _testEof190 *) ((LEofN 190), (KCs 190 (KGoto LEof KNil)));
  (* builder.go:7962 _testEof191 *) ((LEofN 191), (KCs 191 (KGoto LEof KNil)));
  (* builder.go:7965 _testEof192 *) ((LEofN 192), (KCs 192 (KGoto LEof KNil)));
  (* builder.go:7968 _testEof193 *) ((LEofN 193), (KCs 193 (KGoto LEof KNil)));
  (* builder.go:7971 _testEof194 *) ((LEofN 194), (KCs 194 (KGoto LEof KNil)));
  (* builder.go:7974 _testEof195 *) ((LEofN 195), (KCs 195 (KGoto LEof KNil)));
  (* builder.go:7977 _testEof196 *) ((LEofN 196), (KCs 196 (KGoto LEof KNil)));
  (* builder.go:7980 _testEof197 *) ((LEofN 197), (KCs 197 (KGoto LEof KNil)));
  (* builder.go:7983 _testEof198 *) ((LEofN 198), (KCs 198 (KGoto LEof KNil)));
  (* builder.go:7986 _testEof199 *) ((LEofN 199), (KCs 199 (KGoto LEof KNil)));
  (* builder.go:7989 _testEof200 *) ((LEofN 200), (KCs 200 (KGoto LEof KNil)));
  (* builder.go:7992 _testEof201 *) ((LEofN 201), (KCs 201 (KGoto LEof KNil)));
  (* builder.go:7995 _testEof202 *) ((LEofN 202), (KCs 202 (KGoto LEof KNil)));
  (* builder.go:7998 _testEof203 *) ((LEofN 203), (KCs 203 (KGoto LEof KNil)));
  (* builder.go:8001 _testEof204 *) ((LEofN 204), (KCs 204 (KGoto LEof KNil)));
  (* builder.go:8004 _testEof205 *) ((LEofN 205), (KCs 205 (KGoto LEof KNil)));
  (* builder.go:8007 _testEof206 *) ((LEofN 206), (KCs 206 (KGoto LEof KNil)));
  (* builder.go:8010 _testEof207 *) ((LEofN 207), (KCs 207 (KGoto LEof KNil)));
  (* builder.go:8013 _testEof208 *) ((LEofN 208), (KCs 208 (KGoto LEof KNil)));
  (* builder.go:8016 _testEof209 *) ((LEofN 209), (KCs 209 (KGoto LEof KNil)));
  (* builder.go:8019 _testEof210 *) ((LEofN 210), (KCs 210 (KGoto LEof KNil)));
  (* builder.go:8022 _testEof211 *) ((LEofN 211), (KCs 211 (KGoto LEof KNil)));
  (* builder.go:8025 _testEof212 *) ((LEofN 212), (KCs 212 (KGoto LEof KNil)));
  (* builder.go:8028 _testEof213 *) ((LEofN 213), (KCs 213 (KGoto LEof KNil)));
  (* builder.go:8031 _testEof214 *) ((LEofN 214), (KCs 214 (KGoto LEof KNil)));
  (* builder.go:8034 _testEof215 *) ((LEofN 215), (KCs 215 (KGoto LEof KNil)));
  (* builder.go:8037 _testEof216 *) ((LEofN 216), (KCs 216 (KGoto LEof KNil)));
  (* builder.go:8040 _testEof217 *) ((LEofN 217), (KCs 217 (KGoto LEof KNil)))
].

(* /repo/rfc5424/builder.go *)
Definition progBuilder_23 : list (label * code act cnd) := [
  (* builder.go:8043 _testEof218 *) ((LEofN 218), (KCs 218 (KGoto LEof KNil)));
  (* builder.go:8046 _testEof219 *) ((LEofN 219), (KCs 219 (KGoto LEof KNil)));
  (* builder.go:8049 _testEof220 *) ((LEofN 220), (KCs 220 (KGoto LEof KNil)));
  (* builder.go:8052 _testEof221 *) ((LEofN 221), (KCs 221 (KGoto LEof KNil)));
  (* builder.go:8055 _testEof222 *) ((LEofN 222), (KCs 222 (KGoto LEof KNil)));
  (* builder.go:8058 _testEof223 *) ((LEofN 223), (KCs 223 (KGoto LEof KNil)));
  (* builder.go:8061 _testEof224 *) ((LEofN 224), (KCs 224 (KGoto LEof KNil)));
  (* builder.go:8064 _testEof225 *) ((LEofN 225), (KCs 225 (KGoto LEof KNil)));
  (* builder.go:8067 _testEof226 *) ((LEofN 226), (KCs 226 (KGoto LEof KNil)));
  (* builder.go:8070 _testEof227 *) ((LEofN 227), (KCs 227 (KGoto LEof KNil)));
  (* builder.go:8073 _testEof228 *) ((LEofN 228), (KCs 228 (KGoto LEof KNil)));
  (* builder.go:8076 _testEof229 *) ((LEofN 229), (KCs 229 (KGoto LEof KNil)));
  (* builder.go:8079 _testEof230 *) ((LEofN 230), (KCs 230 (KGoto LEof KNil)));
  (* builder.go:8082 _testEof231 *) ((LEofN 231), (KCs 231 (KGoto LEof KNil)));
  (* builder.go:8085 _testEof232 *) ((LEofN 232), (KCs 232 (KGoto LEof KNil)));
  (* builder.go:8088 _testEof233 *) ((LEofN 233), (KCs 233 (KGoto LEof KNil)));
  (* builder.go:8091 _testEof234 *) ((LEofN 234), (KCs 234 (KGoto LEof KNil)));
  (* builder.go:8094 _testEof235 *) ((LEofN 235), (KCs 235 (KGoto LEof KNil)));
  (* builder.go:8097 _testEof236 *) ((LEofN 236), (KCs 236 (KGoto LEof KNil)));
  (* builder.go:8100 _testEof237 *) ((LEofN 237), (KCs 237 (KGoto LEof KNil)));
  (* builder.go:8103 _testEof238 *) ((LEofN 238), (KCs 238 (KGoto LEof KNil)));
  (* builder.go:8106 _testEof239 *) ((LEofN 239), (KCs 239 (KGoto LEof KNil)));
  (* builder.go:8109 _testEof240 *) ((LEofN 240), (KCs 240 (KGoto LEof KNil)));
  (* builder.go:8112 _testEof241 *) ((LEofN 241), (KCs 241 (KGoto LEof KNil)));
  (* builder.go:8115 _testEof242 *) ((LEofN 242), (KCs 242 (KGoto LEof KNil)));
  (* builder.go:8118 _testEof243 *) ((LEofN 243), (KCs 243 (KGoto LEof KNil)));
  (* builder.go:8121 _testEof244 *) ((LEofN 244), (KCs 244 (KGoto LEof KNil)));
  (* builder.go:8124 _testEof245 *) ((LEofN 245), (KCs 245 (KGoto LEof KNil)));
  (* builder.go:8127 _testEof246 *) ((LEofN 246), (KCs 246 (KGoto LEof KNil)));
  (* builder.go:8130 _testEof247 *) ((LEofN 247), (KCs 247 (KGoto LEof KNil)));
  (* builder.go:8133 _testEof248 *) ((LEofN 248), (KCs 248 (KGoto LEof KNil)));
  (* builder.go:8136 _testEof249 *) ((LEofN 249), (KCs 249 (KGoto LEof KNil)));
  (* builder.go:8139 _testEof250 *) ((LEofN 250), (KCs 250 (KGoto LEof KNil)));
  (* builder.go:8142 _testEof251 *) ((LEofN 251), (KCs 251 (KGoto LEof KNil)));
  (* builder.go:8145 _testEof252 *) ((LEofN 252), (KCs 252 (KGoto LEof KNil)));
  (* builder.go:8148 _testEof253 *) ((LEofN 253), (KCs 253 (KGoto LEof KNil)));
  (* builder.go:8151 _testEof254 *) ((LEofN 254), (KCs 254 (KGoto LEof KNil)));
  (* builder.go:8154 _testEof255 *) ((LEofN 255), (KCs 255 (KGoto LEof KNil)));
  (* builder.go:8157 _testEof256 *) ((LEofN 256), (KCs 256 (KGoto LEof KNil)));
  (* builder.go:8160 _testEof257 *) ((LEofN 257), (KCs 257 (KGoto LEof KNil)));
  (* builder.go:8163 _testEof258 *) ((LEofN 258), (KCs 258 (KGoto LEof KNil)));
  (* builder.go:8166 _testEof259 *) ((LEofN 259), (KCs 259 (KGoto LEof KNil)));
  (* builder.go:8169 _testEof260 *) ((LEofN 260), (KCs 260 (KGoto LEof KNil)));
  (* builder.go:8172 _testEof261 *) ((LEofN 261), (KCs 261 (KGoto LEof KNil)));
  (* builder.go:8175 _testEof262 *) ((LEofN 262), (KCs 262 (KGoto LEof KNil)));
  (* builder.go:8178 _testEof263 *) ((LEofN 263), (KCs 263 (KGoto LEof KNil)));
  (* builder.go:8181 _testEof264 *) ((LEofN 264), (KCs 264 (KGoto LEof KNil)));
  (* builder.go:8184 _testEof265 *) ((LEofN 265), (KCs 265 (KGoto LEof KNil)));
  (* builder.go:8187 _testEof266 *) ((LEofN 266), (KCs 266 (KGoto LEof KNil)));
  (* builder.go:8190 _testEof267 *) ((LEofN 267), (KCs 267 (KGoto LEof KNil)));
  (* builder.go:8193 _testEof268 *) ((LEofN 268), (KCs 268 (KGoto LEof KNil)));
  (* builder.go:8196 _testEof269 *) ((LEofN 269), (KCs 269 (KGoto LEof KNil)));
  (* builder.go:8199 _testEof270 *) ((LEofN 270), (KCs 270 (KGoto LEof KNil)));
  (* builder.go:8202 _testEof271 *) ((LEofN 271), (KCs 271 (KGoto LEof KNil)));
  (* builder.go:8205 _testEof272 *) ((LEofN 272), (KCs 272 (KGoto LEof KNil)));
  (* builder.go:8208 _testEof273 *) ((LEofN 273), (KCs 273 (KGoto LEof KNil)));
  (* builder.go:8211 _testEof274 *) ((LEofN 274), (KCs 274 (KGoto LEof KNil)));
  (* builder.go:8214 _testEof275 *) ((LEofN 275), (KCs 275 (KGoto LEof KNil)));
  (* builder.go:8217 _testEof276 *) ((LEofN 276), (KCs 276 (KGoto LEof KNil)));
  (* builder.go:8220 _testEof277 *) ((LEofN 277), (KCs 277 (KGoto LEof KNil)))
].

(* /repo/rfc5424/builder.go *)
Definition progBuilder_24 : list (label * code act cnd) := [
  (* builder.go:8223 _testEof278 *) ((LEofN 278), (KCs 278 (KGoto LEof KNil)));
  (* builder.go:8226 _testEof279 *) ((LEofN 279), (KCs 279 (KGoto LEof KNil)));
  (* builder.go:8229 _testEof280 *) ((LEofN 280), (KCs 280 (KGoto LEof KNil)));
  (* builder.go:8232 _testEof281 *) ((LEofN 281), (KCs 281 (KGoto LEof KNil)));
  (* builder.go:8235 _testEof282 *) ((LEofN 282), (KCs 282 (KGoto LEof KNil)));
  (* builder.go:8238 _testEof283 *) ((LEofN 283), (KCs 283 (KGoto LEof KNil)));
  (* builder.go:8241 _testEof284 *) ((LEofN 284), (KCs 284 (KGoto LEof KNil)));
  (* builder.go:8244 _testEof285 *) ((LEofN 285), (KCs 285 (KGoto LEof KNil)));
  (* builder.go:8247 _testEof286 *) ((LEofN 286), (KCs 286 (KGoto LEof KNil)));
  (* builder.go:8250 _testEof287 *) ((LEofN 287), (KCs 287 (KGoto LEof KNil)));
  (* builder.go:8253 _testEof288 *) ((LEofN 288), (KCs 288 (KGoto LEof KNil)));
  (* builder.go:8256 _testEof289 *) ((LEofN 289), (KCs 289 (KGoto LEof KNil)));
  (* builder.go:8259 _testEof290 *) ((LEofN 290), (KCs 290 (KGoto LEof KNil)));
  (* builder.go:8262 _testEof291 *) ((LEofN 291), (KCs 291 (KGoto LEof KNil)));
  (* builder.go:8265 _testEof292 *) ((LEofN 292), (KCs 292 (KGoto LEof KNil)));
  (* builder.go:8268 _testEof293 *) ((LEofN 293), (KCs 293 (KGoto LEof KNil)));
  (* builder.go:8271 _testEof294 *) ((LEofN 294), (KCs 294 (KGoto LEof KNil)));
  (* builder.go:8274 _testEof295 *) ((LEofN 295), (KCs 295 (KGoto LEof KNil)));
  (* builder.go:8277 _testEof296 *) ((LEofN 296), (KCs 296 (KGoto LEof KNil)));
  (* builder.go:8280 _testEof297 *) ((LEofN 297), (KCs 297 (KGoto LEof KNil)));
  (* builder.go:8283 _testEof298 *) ((LEofN 298), (KCs 298 (KGoto LEof KNil)));
  (* builder.go:8286 _testEof299 *) ((LEofN 299), (KCs 299 (KGoto LEof KNil)));
  (* builder.go:8289 _testEof300 *) ((LEofN 300), (KCs 300 (KGoto LEof KNil)));
  (* builder.go:8292 _testEof301 *) ((LEofN 301), (KCs 301 (KGoto LEof KNil)));
  (* builder.go:8295 _testEof302 *) ((LEofN 302), (KCs 302 (KGoto LEof KNil)));
  (* builder.go:8298 _testEof303 *) ((LEofN 303), (KCs 303 (KGoto LEof KNil)));
  (* builder.go:8301 _testEof304 *) ((LEofN 304), (KCs 304 (KGoto LEof KNil)));
  (* builder.go:8304 _testEof305 *) ((LEofN 305), (KCs 305 (KGoto LEof KNil)));
  (* builder.go:8307 _testEof306 *) ((LEofN 306), (KCs 306 (KGoto LEof KNil)));
  (* builder.go:8310 _testEof307 *) ((LEofN 307), (KCs 307 (KGoto LEof KNil)));
  (* builder.go:8313 _testEof308 *) ((LEofN 308), (KCs 308 (KGoto LEof KNil)));
  (* builder.go:8316 _testEof309 *) ((LEofN 309), (KCs 309 (KGoto LEof KNil)));
  (* builder.go:8319 _testEof310 *) ((LEofN 310), (KCs 310 (KGoto LEof KNil)));
  (* builder.go:8322 _testEof311 *) ((LEofN 311), (KCs 311 (KGoto LEof KNil)));
  (* builder.go:8325 _testEof312 *) ((LEofN 312), (KCs 312 (KGoto LEof KNil)));
  (* builder.go:8328 _testEof313 *) ((LEofN 313), (KCs 313 (KGoto LEof KNil)));
  (* builder.go:8331 _testEof314 *) ((LEofN 314), (KCs 314 (KGoto LEof KNil)));
  (* builder.go:8334 _testEof315 *) ((LEofN 315), (KCs 315 (KGoto LEof KNil)));
  (* builder.go:8337 _testEof316 *) ((LEofN 316), (KCs 316 (KGoto LEof KNil)));
  (* builder.go:8340 _testEof317 *) ((LEofN 317), (KCs 317 (KGoto LEof KNil)));
  (* builder.go:8343 _testEof318 *) ((LEofN 318), (KCs 318 (KGoto LEof KNil)));
  (* builder.go:8346 _testEof319 *) ((LEofN 319), (KCs 319 (KGoto LEof KNil)));
  (* builder.go:8349 _testEof320 *) ((LEofN 320), (KCs 320 (KGoto LEof KNil)));
  (* builder.go:8352 _testEof321 *) ((LEofN 321), (KCs 321 (KGoto LEof KNil)));
  (* builder.go:8355 _testEof322 *) ((LEofN 322), (KCs 322 (KGoto LEof KNil)));
  (* builder.go:8358 _testEof323 *) ((LEofN 323), (KCs 323 (KGoto LEof KNil)));
  (* builder.go:8361 _testEof324 *) ((LEofN 324), (KCs 324 (KGoto LEof KNil)));
  (* builder.go:8364 _testEof325 *) ((LEofN 325), (KCs 325 (KGoto LEof KNil)));
  (* builder.go:8367 _testEof326 *) ((LEofN 326), (KCs 326 (KGoto LEof KNil)));
  (* builder.go:8370 _testEof327 *) ((LEofN 327), (KCs 327 (KGoto LEof KNil)));
  (* builder.go:8373 _testEof328 *) ((LEofN 328), (KCs 328 (KGoto LEof KNil)));
  (* builder.go:8376 _testEof329 *) ((LEofN 329), (KCs 329 (KGoto LEof KNil)));
  (* builder.go:8379 _testEof330 *) ((LEofN 330), (KCs 330 (KGoto LEof KNil)));
  (* builder.go:8382 _testEof331 *) ((LEofN 331), (KCs 331 (KGoto LEof KNil)));
  (* builder.go:8385 _testEof332 *) ((LEofN 332), (KCs 332 (KGoto LEof KNil)));
  (* builder.go:8388 _testEof333 *) ((LEofN 333), (KCs 333 (KGoto LEof KNil)));
  (* builder.go:8391 _testEof334 *) ((LEofN 334), (KCs 334 (KGoto LEof KNil)));
  (* builder.go:8394 _testEof335 *) ((LEofN 335), (KCs 335 (KGoto LEof KNil)));
  (* builder.go:8397 _testEof336 *) ((LEofN 336), (KCs 336 (KGoto LEof KNil)));
  (* builder.go:8400 _testEof337 *) ((LEofN 337), (KCs 337 (KGoto LEof KNil)))
].

(* /repo/rfc5424/builder.go *)
Definition progBuilder_25 : list (label * code act cnd) := [
  (* builder.go:8403 _testEof338 *) ((LEofN 338), (KCs 338 (KGoto LEof KNil)));
  (* builder.go:8406 _testEof339 *) ((LEofN 339), (KCs 339 (KGoto LEof KNil)));
  (* builder.go:8409 _testEof340 *) ((LEofN 340), (KCs 340 (KGoto LEof KNil)));
  (* builder.go:8412 _testEof341 *) ((LEofN 341), (KCs 341 (KGoto LEof KNil)));
  (* builder.go:8415 _testEof342 *) ((LEofN 342), (KCs 342 (KGoto LEof KNil)));
  (* builder.go:8418 _testEof343 *) ((LEofN 343), (KCs 343 (KGoto LEof KNil)));
  (* builder.go:8421 _testEof344 *) ((LEofN 344), (KCs 344 (KGoto LEof KNil)));
  (* builder.go:8424 _testEof345 *) ((LEofN 345), (KCs 345 (KGoto LEof KNil)));
  (* builder.go:8427 _testEof346 *) ((LEofN 346), (KCs 346 (KGoto LEof KNil)));
  (* builder.go:8430 _testEof347 *) ((LEofN 347), (KCs 347 (KGoto LEof KNil)));
  (* builder.go:8433 _testEof348 *) ((LEofN 348), (KCs 348 (KGoto LEof KNil)));
  (* builder.go:8436 _testEof349 *) ((LEofN 349), (KCs 349 (KGoto LEof KNil)));
  (* builder.go:8439 _testEof350 *) ((LEofN 350), (KCs 350 (KGoto LEof KNil)));
  (* builder.go:8442 _testEof351 *) ((LEofN 351), (KCs 351 (KGoto LEof KNil)));
  (* builder.go:8445 _testEof352 *) ((LEofN 352), (KCs 352 (KGoto LEof KNil)));
  (* builder.go:8448 _testEof353 *) ((LEofN 353), (KCs 353 (KGoto LEof KNil)));
  (* builder.go:8451 _testEof354 *) ((LEofN 354), (KCs 354 (KGoto LEof KNil)));
  (* builder.go:8454 _testEof355 *) ((LEofN 355), (KCs 355 (KGoto LEof KNil)));
  (* builder.go:8457 _testEof356 *) ((LEofN 356), (KCs 356 (KGoto LEof KNil)));
  (* builder.go:8460 _testEof357 *) ((LEofN 357), (KCs 357 (KGoto LEof KNil)));
  (* builder.go:8463 _testEof358 *) ((LEofN 358), (KCs 358 (KGoto LEof KNil)));
  (* builder.go:8466 _testEof359 *) ((LEofN 359), (KCs 359 (KGoto LEof KNil)));
  (* builder.go:8469 _testEof360 *) ((LEofN 360), (KCs 360 (KGoto LEof KNil)));
  (* builder.go:8472 _testEof361 *) ((LEofN 361), (KCs 361 (KGoto LEof KNil)));
  (* builder.go:8475 _testEof362 *) ((LEofN 362), (KCs 362 (KGoto LEof KNil)));
  (* builder.go:8478 _testEof363 *) ((LEofN 363), (KCs 363 (KGoto LEof KNil)));
  (* builder.go:8481 _testEof364 *) ((LEofN 364), (KCs 364 (KGoto LEof KNil)));
  (* builder.go:8484 _testEof365 *) ((LEofN 365), (KCs 365 (KGoto LEof KNil)));
  (* builder.go:8487 _testEof366 *) ((LEofN 366), (KCs 366 (KGoto LEof KNil)));
  (* builder.go:8490 _testEof367 *) ((LEofN 367), (KCs 367 (KGoto LEof KNil)));
  (* builder.go:8493 _testEof368 *) ((LEofN 368), (KCs 368 (KGoto LEof KNil)));
  (* builder.go:8496 _testEof369 *) ((LEofN 369), (KCs 369 (KGoto LEof KNil)));
  (* builder.go:8499 _testEof370 *) ((LEofN 370), (KCs 370 (KGoto LEof KNil)));
  (* builder.go:8502 _testEof371 *) ((LEofN 371), (KCs 371 (KGoto LEof KNil)));
  (* builder.go:8505 _testEof372 *) ((LEofN 372), (KCs 372 (KGoto LEof KNil)));
  (* builder.go:8508 _testEof373 *) ((LEofN 373), (KCs 373 (KGoto LEof KNil)));
  (* builder.go:8511 _testEof374 *) ((LEofN 374), (KCs 374 (KGoto LEof KNil)));
  (* builder.go:8514 _testEof375 *) ((LEofN 375), (KCs 375 (KGoto LEof KNil)));
  (* builder.go:8517 _testEof376 *) ((LEofN 376), (KCs 376 (KGoto LEof KNil)));
  (* builder.go:8520 _testEof377 *) ((LEofN 377), (KCs 377 (KGoto LEof KNil)));
  (* builder.go:8523 _testEof378 *) ((LEofN 378), (KCs 378 (KGoto LEof KNil)));
  (* builder.go:8526 _testEof379 *) ((LEofN 379), (KCs 379 (KGoto LEof KNil)));
  (* builder.go:8529 _testEof380 *) ((LEofN 380), (KCs 380 (KGoto LEof KNil)));
  (* builder.go:8532 _testEof381 *) ((LEofN 381), (KCs 381 (KGoto LEof KNil)));
  (* builder.go:8535 _testEof382 *) ((LEofN 382), (KCs 382 (KGoto LEof KNil)));
  (* builder.go:8538 _testEof383 *) ((LEofN 383), (KCs 383 (KGoto LEof KNil)));
  (* builder.go:8541 _testEof384 *) ((LEofN 384), (KCs 384 (KGoto LEof KNil)));
  (* builder.go:8544 _testEof385 *) ((LEofN 385), (KCs 385 (KGoto LEof KNil)));
  (* builder.go:8547 _testEof386 *) ((LEofN 386), (KCs 386 (KGoto LEof KNil)));
  (* builder.go:8550 _testEof387 *) ((LEofN 387), (KCs 387 (KGoto LEof KNil)));
  (* builder.go:8553 _testEof388 *) ((LEofN 388), (KCs 388 (KGoto LEof KNil)));
  (* builder.go:8556 _testEof389 *) ((LEofN 389), (KCs 389 (KGoto LEof KNil)));
  (* builder.go:8559 _testEof390 *) ((LEofN 390), (KCs 390 (KGoto LEof KNil)));
  (* builder.go:8562 _testEof391 *) ((LEofN 391), (KCs 391 (KGoto LEof KNil)));
  (* builder.go:8565 _testEof392 *) ((LEofN 392), (KCs 392 (KGoto LEof KNil)));
  (* builder.go:8568 _testEof393 *) ((LEofN 393), (KCs 393 (KGoto LEof KNil)));
  (* builder.go:8571 _testEof394 *) ((LEofN 394), (KCs 394 (KGoto LEof KNil)));
  (* builder.go:8574 _testEof395 *) ((LEofN 395), (KCs 395 (KGoto LEof KNil)));
  (* builder.go:8577 _testEof396 *) ((LEofN 396), (KCs 396 (KGoto LEof KNil)));
  (* builder.go:8580 _testEof397 *) ((LEofN 397), (KCs 397 (KGoto LEof KNil)))
].

(* /repo/rfc5424/builder.go *)
Definition progBuilder_26 : list (label * code act cnd) := [
  (* builder.go:8583 _testEof398 *) ((LEofN 398), (KCs 398 (KGoto LEof KNil)));
  (* builder.go:8586 _testEof399 *) ((LEofN 399), (KCs 399 (KGoto LEof KNil)));
  (* builder.go:8589 _testEof400 *) ((LEofN 400), (KCs 400 (KGoto LEof KNil)));
  (* builder.go:8592 _testEof401 *) ((LEofN 401), (KCs 401 (KGoto LEof KNil)));
  (* builder.go:8595 _testEof402 *) ((LEofN 402), (KCs 402 (KGoto LEof KNil)));
  (* builder.go:8598 _testEof403 *) ((LEofN 403), (KCs 403 (KGoto LEof KNil)));
  (* builder.go:8601 _testEof404 *) ((LEofN 404), (KCs 404 (KGoto LEof KNil)));
  (* builder.go:8604 _testEof405 *) ((LEofN 405), (KCs 405 (KGoto LEof KNil)));
  (* builder.go:8607 _testEof406 *) ((LEofN 406), (KCs 406 (KGoto LEof KNil)));
  (* builder.go:8610 _testEof407 *) ((LEofN 407), (KCs 407 (KGoto LEof KNil)));
  (* builder.go:8613 _testEof408 *) ((LEofN 408), (KCs 408 (KGoto LEof KNil)));
  (* builder.go:8616 _testEof409 *) ((LEofN 409), (KCs 409 (KGoto LEof KNil)));
  (* builder.go:8619 _testEof410 *) ((LEofN 410), (KCs 410 (KGoto LEof KNil)));
  (* builder.go:8622 _testEof411 *) ((LEofN 411), (KCs 411 (KGoto LEof KNil)));
  (* builder.go:8625 _testEof412 *) ((LEofN 412), (KCs 412 (KGoto LEof KNil)));
  (* builder.go:8628 _testEof413 *) ((LEofN 413), (KCs 413 (KGoto LEof KNil)));
  (* builder.go:8631 _testEof414 *) ((LEofN 414), (KCs 414 (KGoto LEof KNil)));
  (* builder.go:8634 _testEof415 *) ((LEofN 415), (KCs 415 (KGoto LEof KNil)));
  (* builder.go:8637 _testEof416 *) ((LEofN 416), (KCs 416 (KGoto LEof KNil)));
  (* builder.go:8640 _testEof417 *) ((LEofN 417), (KCs 417 (KGoto LEof KNil)));
  (* builder.go:8643 _testEof418 *) ((LEofN 418), (KCs 418 (KGoto LEof KNil)));
  (* builder.go:8646 _testEof419 *) ((LEofN 419), (KCs 419 (KGoto LEof KNil)));
  (* builder.go:8649 _testEof420 *) ((LEofN 420), (KCs 420 (KGoto LEof KNil)));
  (* builder.go:8652 _testEof421 *) ((LEofN 421), (KCs 421 (KGoto LEof KNil)));
  (* builder.go:8655 _testEof422 *) ((LEofN 422), (KCs 422 (KGoto LEof KNil)));
  (* builder.go:8658 _testEof423 *) ((LEofN 423), (KCs 423 (KGoto LEof KNil)));
  (* builder.go:8661 _testEof424 *) ((LEofN 424), (KCs 424 (KGoto LEof KNil)));
  (* builder.go:8664 _testEof425 *) ((LEofN 425), (KCs 425 (KGoto LEof KNil)));
  (* builder.go:8667 _testEof426 *) ((LEofN 426), (KCs 426 (KGoto LEof KNil)));
  (* builder.go:8670 _testEof427 *) ((LEofN 427), (KCs 427 (KGoto LEof KNil)));
  (* builder.go:8673 _testEof428 *) ((LEofN 428), (KCs 428 (KGoto LEof KNil)));
  (* builder.go:8676 _testEof429 *) ((LEofN 429), (KCs 429 (KGoto LEof KNil)));
  (* builder.go:8679 _testEof430 *) ((LEofN 430), (KCs 430 (KGoto LEof KNil)));
  (* builder.go:8682 _testEof431 *) ((LEofN 431), (KCs 431 (KGoto LEof KNil)));
  (* builder.go:8685 _testEof432 *) ((LEofN 432), (KCs 432 (KGoto LEof KNil)));
  (* builder.go:8688 _testEof433 *) ((LEofN 433), (KCs 433 (KGoto LEof KNil)));
  (* builder.go:8691 _testEof434 *) ((LEofN 434), (KCs 434 (KGoto LEof KNil)));
  (* builder.go:8694 _testEof435 *) ((LEofN 435), (KCs 435 (KGoto LEof KNil)));
  (* builder.go:8697 _testEof436 *) ((LEofN 436), (KCs 436 (KGoto LEof KNil)));
  (* builder.go:8700 _testEof437 *) ((LEofN 437), (KCs 437 (KGoto LEof KNil)));
  (* builder.go:8703 _testEof438 *) ((LEofN 438), (KCs 438 (KGoto LEof KNil)));
  (* builder.go:8706 _testEof439 *) ((LEofN 439), (KCs 439 (KGoto LEof KNil)));
  (* builder.go:8709 _testEof440 *) ((LEofN 440), (KCs 440 (KGoto LEof KNil)));
  (* builder.go:8712 _testEof441 *) ((LEofN 441), (KCs 441 (KGoto LEof KNil)));
  (* builder.go:8715 _testEof442 *) ((LEofN 442), (KCs 442 (KGoto LEof KNil)));
  (* builder.go:8718 _testEof443 *) ((LEofN 443), (KCs 443 (KGoto LEof KNil)));
  (* builder.go:8721 _testEof444 *) ((LEofN 444), (KCs 444 (KGoto LEof KNil)));
  (* builder.go:8724 _testEof445 *) ((LEofN 445), (KCs 445 (KGoto LEof KNil)));
  (* builder.go:8727 _testEof446 *) ((LEofN 446), (KCs 446 (KGoto LEof KNil)));
  (* builder.go:8730 _testEof447 *) ((LEofN 447), (KCs 447 (KGoto LEof KNil)));
  (* builder.go:8733 _testEof448 *) ((LEofN 448), (KCs 448 (KGoto LEof KNil)));
  (* builder.go:8736 _testEof449 *) ((LEofN 449), (KCs 449 (KGoto LEof KNil)));
  (* builder.go:8739 _testEof450 *) ((LEofN 450), (KCs 450 (KGoto LEof KNil)));
  (* builder.go:8742 _testEof451 *) ((LEofN 451), (KCs 451 (KGoto LEof KNil)));
  (* builder.go:8745 _testEof452 *) ((LEofN 452), (KCs 452 (KGoto LEof KNil)));
  (* builder.go:8748 _testEof453 *) ((LEofN 453), (KCs 453 (KGoto LEof KNil)));
  (* builder.go:8751 _testEof454 *) ((LEofN 454), (KCs 454 (KGoto LEof KNil)));
  (* builder.go:8754 _testEof455 *) ((LEofN 455), (KCs 455 (KGoto LEof KNil)));
  (* builder.go:8757 _testEof456 *) ((LEofN 456), (KCs 456 (KGoto LEof KNil)));
  (* builder.go:8760 _testEof457 *) ((LEofN 457), (KCs 457 (KGoto LEof KNil)))
].

(* /repo/rfc5424/builder.go *)
Definition progBuilder_27 : list (label * code act cnd) := [
  (* builder.go:8763 _testEof458 *) ((LEofN 458), (KCs 458 (KGoto LEof KNil)));
  (* builder.go:8766 _testEof459 *) ((LEofN 459), (KCs 459 (KGoto LEof KNil)));
  (* builder.go:8769 _testEof460 *) ((LEofN 460), (KCs 460 (KGoto LEof KNil)));
  (* builder.go:8772 _testEof461 *) ((LEofN 461), (KCs 461 (KGoto LEof KNil)));
  (* builder.go:8775 _testEof462 *) ((LEofN 462), (KCs 462 (KGoto LEof KNil)));
  (* builder.go:8778 _testEof463 *) ((LEofN 463), (KCs 463 (KGoto LEof KNil)));
  (* builder.go:8781 _testEof464 *) ((LEofN 464), (KCs 464 (KGoto LEof KNil)));
  (* builder.go:8784 _testEof465 *) ((LEofN 465), (KCs 465 (KGoto LEof KNil)));
  (* builder.go:8787 _testEof466 *) ((LEofN 466), (KCs 466 (KGoto LEof KNil)));
  (* builder.go:8790 _testEof467 *) ((LEofN 467), (KCs 467 (KGoto LEof KNil)));
  (* builder.go:8793 _testEof468 *) ((LEofN 468), (KCs 468 (KGoto LEof KNil)));
  (* builder.go:8796 _testEof469 *) ((LEofN 469), (KCs 469 (KGoto LEof KNil)));
  (* builder.go:8799 _testEof470 *) ((LEofN 470), (KCs 470 (KGoto LEof KNil)));
  (* builder.go:8802 _testEof471 *) ((LEofN 471), (KCs 471 (KGoto LEof KNil)));
  (* builder.go:8805 _testEof472 *) ((LEofN 472), (KCs 472 (KGoto LEof KNil)));
  (* builder.go:8808 _testEof473 *) ((LEofN 473), (KCs 473 (KGoto LEof KNil)));
  (* builder.go:8811 _testEof474 *) ((LEofN 474), (KCs 474 (KGoto LEof KNil)));
  (* builder.go:8814 _testEof475 *) ((LEofN 475), (KCs 475 (KGoto LEof KNil)));
  (* builder.go:8817 _testEof476 *) ((LEofN 476), (KCs 476 (KGoto LEof KNil)));
  (* builder.go:8820 _testEof477 *) ((LEofN 477), (KCs 477 (KGoto LEof KNil)));
  (* builder.go:8823 _testEof478 *) ((LEofN 478), (KCs 478 (KGoto LEof KNil)));
  (* builder.go:8826 _testEof479 *) ((LEofN 479), (KCs 479 (KGoto LEof KNil)));
  (* builder.go:8829 _testEof480 *) ((LEofN 480), (KCs 480 (KGoto LEof KNil)));
  (* builder.go:8832 _testEof481 *) ((LEofN 481), (KCs 481 (KGoto LEof KNil)));
  (* builder.go:8835 _testEof482 *) ((LEofN 482), (KCs 482 (KGoto LEof KNil)));
  (* builder.go:8838 _testEof483 *) ((LEofN 483), (KCs 483 (KGoto LEof KNil)));
  (* builder.go:8841 _testEof484 *) ((LEofN 484), (KCs 484 (KGoto LEof KNil)));
  (* builder.go:8844 _testEof485 *) ((LEofN 485), (KCs 485 (KGoto LEof KNil)));
  (* builder.go:8847 _testEof486 *) ((LEofN 486), (KCs 486 (KGoto LEof KNil)));
  (* builder.go:8850 _testEof487 *) ((LEofN 487), (KCs 487 (KGoto LEof KNil)));
  (* builder.go:8853 _testEof488 *) ((LEofN 488), (KCs 488 (KGoto LEof KNil)));
  (* builder.go:8856 _testEof489 *) ((LEofN 489), (KCs 489 (KGoto LEof KNil)));
  (* builder.go:8859 _testEof490 *) ((LEofN 490), (KCs 490 (KGoto LEof KNil)));
  (* builder.go:8862 _testEof491 *) ((LEofN 491), (KCs 491 (KGoto LEof KNil)));
  (* builder.go:8865 _testEof492 *) ((LEofN 492), (KCs 492 (KGoto LEof KNil)));
  (* builder.go:8868 _testEof493 *) ((LEofN 493), (KCs 493 (KGoto LEof KNil)));
  (* builder.go:8871 _testEof494 *) ((LEofN 494), (KCs 494 (KGoto LEof KNil)));
  (* builder.go:8874 _testEof495 *) ((LEofN 495), (KCs 495 (KGoto LEof KNil)));
  (* builder.go:8877 _testEof496 *) ((LEofN 496), (KCs 496 (KGoto LEof KNil)));
  (* builder.go:8880 _testEof497 *) ((LEofN 497), (KCs 497 (KGoto LEof KNil)));
  (* builder.go:8883 _testEof498 *) ((LEofN 498), (KCs 498 (KGoto LEof KNil)));
  (* builder.go:8886 _testEof499 *) ((LEofN 499), (KCs 499 (KGoto LEof KNil)));
  (* builder.go:8889 _testEof500 *) ((LEofN 500), (KCs 500 (KGoto LEof KNil)));
  (* builder.go:8892 _testEof501 *) ((LEofN 501), (KCs 501 (KGoto LEof KNil)));
  (* builder.go:8895 _testEof502 *) ((LEofN 502), (KCs 502 (KGoto LEof KNil)));
  (* builder.go:8898 _testEof503 *) ((LEofN 503), (KCs 503 (KGoto LEof KNil)));
  (* builder.go:8901 _testEof504 *) ((LEofN 504), (KCs 504 (KGoto LEof KNil)));
  (* builder.go:8904 _testEof505 *) ((LEofN 505), (KCs 505 (KGoto LEof KNil)));
  (* builder.go:8907 _testEof506 *) ((LEofN 506), (KCs 506 (KGoto LEof KNil)));
  (* builder.go:8910 _testEof507 *) ((LEofN 507), (KCs 507 (KGoto LEof KNil)));
  (* builder.go:8913 _testEof508 *) ((LEofN 508), (KCs 508 (KGoto LEof KNil)));
  (* builder.go:8916 _testEof509 *) ((LEofN 509), (KCs 509 (KGoto LEof KNil)));
  (* builder.go:8919 _testEof510 *) ((LEofN 510), (KCs 510 (KGoto LEof KNil)));
  (* builder.go:8922 _testEof511 *) ((LEofN 511), (KCs 511 (KGoto LEof KNil)));
  (* builder.go:8925 _testEof512 *) ((LEofN 512), (KCs 512 (KGoto LEof KNil)));
  (* builder.go:8928 _testEof513 *) ((LEofN 513), (KCs 513 (KGoto LEof KNil)));
  (* builder.go:8931 _testEof514 *) ((LEofN 514), (KCs 514 (KGoto LEof KNil)));
  (* builder.go:8934 _testEof515 *) ((LEofN 515), (KCs 515 (KGoto LEof KNil)));
  (* builder.go:8937 _testEof516 *) ((LEofN 516), (KCs 516 (KGoto LEof KNil)));
  (* builder.go:8940 _testEof517 *) ((LEofN 517), (KCs 517 (KGoto LEof KNil)))
].

(* /repo/rfc5424/builder.go *)
Definition progBuilder_28 : list (label * code act cnd) := [
  (* builder.go:8943 _testEof518 *) ((LEofN 518), (KCs 518 (KGoto LEof KNil)));
  (* builder.go:8946 _testEof519 *) ((LEofN 519), (KCs 519 (KGoto LEof KNil)));
  (* builder.go:8949 _testEof520 *) ((LEofN 520), (KCs 520 (KGoto LEof KNil)));
  (* builder.go:8952 _testEof521 *) ((LEofN 521), (KCs 521 (KGoto LEof KNil)));
  (* builder.go:8955 _testEof522 *) ((LEofN 522), (KCs 522 (KGoto LEof KNil)));
  (* builder.go:8958 _testEof523 *) ((LEofN 523), (KCs 523 (KGoto LEof KNil)));
  (* builder.go:8961 _testEof524 *) ((LEofN 524), (KCs 524 (KGoto LEof KNil)));
  (* builder.go:8964 _testEof525 *) ((LEofN 525), (KCs 525 (KGoto LEof KNil)));
  (* builder.go:8967 _testEof526 *) ((LEofN 526), (KCs 526 (KGoto LEof KNil)));
  (* builder.go:8970 _testEof527 *) ((LEofN 527), (KCs 527 (KGoto LEof KNil)));
  (* builder.go:8973 _testEof528 *) ((LEofN 528), (KCs 528 (KGoto LEof KNil)));
  (* builder.go:8976 _testEof529 *) ((LEofN 529), (KCs 529 (KGoto LEof KNil)));
  (* builder.go:8979 _testEof530 *) ((LEofN 530), (KCs 530 (KGoto LEof KNil)));
  (* builder.go:8982 _testEof531 *) ((LEofN 531), (KCs 531 (KGoto LEof KNil)));
  (* builder.go:8985 _testEof532 *) ((LEofN 532), (KCs 532 (KGoto LEof KNil)));
  (* builder.go:8988 _testEof533 *) ((LEofN 533), (KCs 533 (KGoto LEof KNil)));
  (* builder.go:8991 _testEof534 *) ((LEofN 534), (KCs 534 (KGoto LEof KNil)));
  (* builder.go:8994 _testEof535 *) ((LEofN 535), (KCs 535 (KGoto LEof KNil)));
  (* builder.go:8997 _testEof536 *) ((LEofN 536), (KCs 536 (KGoto LEof KNil)));
  (* builder.go:9000 _testEof537 *) ((LEofN 537), (KCs 537 (KGoto LEof KNil)));
  (* builder.go:9003 _testEof538 *) ((LEofN 538), (KCs 538 (KGoto LEof KNil)));
  (* builder.go:9006 _testEof539 *) ((LEofN 539), (KCs 539 (KGoto LEof KNil)));
  (* builder.go:9009 _testEof540 *) ((LEofN 540), (KCs 540 (KGoto LEof KNil)));
  (* builder.go:9012 _testEof541 *) ((LEofN 541), (KCs 541 (KGoto LEof KNil)));
  (* builder.go:9015 _testEof542 *) ((LEofN 542), (KCs 542 (KGoto LEof KNil)));
  (* builder.go:9018 _testEof543 *) ((LEofN 543), (KCs 543 (KGoto LEof KNil)));
  (* builder.go:9021 _testEof544 *) ((LEofN 544), (KCs 544 (KGoto LEof KNil)));
  (* builder.go:9024 _testEof545 *) ((LEofN 545), (KCs 545 (KGoto LEof KNil)));
  (* builder.go:9027 _testEof546 *) ((LEofN 546), (KCs 546 (KGoto LEof KNil)));
  (* builder.go:9030 _testEof547 *) ((LEofN 547), (KCs 547 (KGoto LEof KNil)));
  (* builder.go:9033 _testEof548 *) ((LEofN 548), (KCs 548 (KGoto LEof KNil)));
  (* builder.go:9036 _testEof549 *) ((LEofN 549), (KCs 549 (KGoto LEof KNil)));
  (* builder.go:9039 _testEof550 *) ((LEofN 550), (KCs 550 (KGoto LEof KNil)));
  (* builder.go:9042 _testEof551 *) ((LEofN 551), (KCs 551 (KGoto LEof KNil)));
  (* builder.go:9045 _testEof552 *) ((LEofN 552), (KCs 552 (KGoto LEof KNil)));
  (* builder.go:9048 _testEof553 *) ((LEofN 553), (KCs 553 (KGoto LEof KNil)));
  (* builder.go:9051 _testEof554 *) ((LEofN 554), (KCs 554 (KGoto LEof KNil)));
  (* builder.go:9054 _testEof555 *) ((LEofN 555), (KCs 555 (KGoto LEof KNil)));
  (* builder.go:9057 _testEof556 *) ((LEofN 556), (KCs 556 (KGoto LEof KNil)));
  (* builder.go:9060 _testEof557 *) ((LEofN 557), (KCs 557 (KGoto LEof KNil)));
  (* builder.go:9063 _testEof558 *) ((LEofN 558), (KCs 558 (KGoto LEof KNil)));
  (* builder.go:9066 _testEof559 *) ((LEofN 559), (KCs 559 (KGoto LEof KNil)));
  (* builder.go:9069 _testEof560 *) ((LEofN 560), (KCs 560 (KGoto LEof KNil)));
  (* builder.go:9072 _testEof561 *) ((LEofN 561), (KCs 561 (KGoto LEof KNil)));
  (* builder.go:9075 _testEof562 *) ((LEofN 562), (KCs 562 (KGoto LEof KNil)));
  (* builder.go:9078 _testEof563 *) ((LEofN 563), (KCs 563 (KGoto LEof KNil)));
  (* builder.go:9081 _testEof564 *) ((LEofN 564), (KCs 564 (KGoto LEof KNil)));
  (* builder.go:9084 _testEof565 *) ((LEofN 565), (KCs 565 (KGoto LEof KNil)));
  (* builder.go:9087 _testEof566 *) ((LEofN 566), (KCs 566 (KGoto LEof KNil)));
  (* builder.go:9090 _testEof567 *) ((LEofN 567), (KCs 567 (KGoto LEof KNil)));
  (* builder.go:9093 _testEof568 *) ((LEofN 568), (KCs 568 (KGoto LEof KNil)));
  (* builder.go:9096 _testEof569 *) ((LEofN 569), (KCs 569 (KGoto LEof KNil)));
  (* builder.go:9099 _testEof570 *) ((LEofN 570), (KCs 570 (KGoto LEof KNil)));
  (* builder.go:9102 _testEof571 *) ((LEofN 571), (KCs 571 (KGoto LEof KNil)));
  (* builder.go:9105 _testEof572 *) ((LEofN 572), (KCs 572 (KGoto LEof KNil)));
  (* builder.go:9108 _testEof573 *) ((LEofN 573), (KCs 573 (KGoto LEof KNil)));
  (* builder.go:9111 _testEof574 *) ((LEofN 574), (KCs 574 (KGoto LEof KNil)));
  (* builder.go:9114 _testEof575 *) ((LEofN 575), (KCs 575 (KGoto LEof KNil)));
  (* builder.go:9117 _testEof576 *) ((LEofN 576), (KCs 576 (KGoto LEof KNil)));
  (* builder.go:9120 _testEof577 *) ((LEofN 577), (KCs 577 (KGoto LEof KNil)))
].

(* /repo/rfc5424/builder.go *)
Definition progBuilder_29 : list (label * code act cnd) := [
  (* builder.go:9123 _testEof578 *) ((LEofN 578), (KCs 578 (KGoto LEof KNil)));
  (* builder.go:9126 _testEof579 *) ((LEofN 579), (KCs 579 (KGoto LEof KNil)));
  (* builder.go:9129 _testEof580 *) ((LEofN 580), (KCs 580 (KGoto LEof KNil)));
  (* builder.go:9132 _testEof581 *) ((LEofN 581), (KCs 581 (KGoto LEof KNil)));
  (* builder.go:9135 _testEof583 *) ((LEofN 583), (KCs 583 (KGoto LEof KNil)));
  (* builder.go:9138 _testEof44 *) ((LEofN 44), (KCs 44 (KGoto LEof KNil)));
  (* builder.go:9141 _testEof45 *) ((LEofN 45), (KCs 45 (KGoto LEof KNil)));
  (* builder.go:9144 _testEof46 *) ((LEofN 46), (KCs 46 (KGoto LEof KNil)));
  (* builder.go:9147 _testEof47 *) ((LEofN 47), (KCs 47 (KGoto LEof KNil)));
  (* builder.go:9150 _testEof48 *) ((LEofN 48), (KCs 48 (KGoto LEof KNil)));
  (* builder.go:9153 _testEof49 *) ((LEofN 49), (KCs 49 (KGoto LEof KNil)));
  (* builder.go:9156 _testEof50 *) ((LEofN 50), (KCs 50 (KGoto LEof KNil)));
  (* builder.go:9159 _testEof51 *) ((LEofN 51), (KCs 51 (KGoto LEof KNil)));
  (* builder.go:9163 _testEof *) (LEof, (KIf CPe (KBlk (KIf (CCs [54]) (KAct BTimeParse (KIf (CExt CTimeOk) (KAct BTimestamp KNil) KNil KNil)) (KIf (CCs [55; 56; 57; 58; 59; 60; 61; 62; 63; 64; 65; 66; 67; 68; 69; 70; 71; 72; 73; 74; 75; 76; 77; 78; 79; 80; 81; 82; 83; 84; 85; 86; 87; 88; 89; 90; 91; 92; 93; 94; 95; 96; 97; 98; 99; 100; 101; 102; 103; 104; 105; 106; 107; 108; 109; 110; 111; 112; 113; 114; 115; 116; 117; 118; 119; 120; 121; 122; 123; 124; 125; 126; 127; 128; 129; 130; 131; 132; 133; 134; 135; 136; 137; 138; 139; 140; 141; 142; 143; 144; 145; 146; 147; 148; 149; 150; 151; 152; 153; 154; 155; 156; 157; 158; 159; 160; 161; 162; 163; 164; 165; 166; 167; 168; 169; 170; 171; 172; 173; 174; 175; 176; 177; 178; 179; 180; 181; 182; 183; 184; 185; 186; 187; 188; 189; 190; 191; 192; 193; 194; 195; 196; 197; 198; 199; 200; 201; 202; 203; 204; 205; 206; 207; 208; 209; 210; 211; 212; 213; 214; 215; 216; 217; 218; 219; 220; 221; 222; 223; 224; 225; 226; 227; 228; 229; 230; 231; 232; 233; 234; 235; 236; 237; 238; 239; 240; 241; 242; 243; 244; 245; 246; 247; 248; 249; 250; 251; 252; 253; 254; 255; 256; 257; 258; 259; 260; 261; 262; 263; 264; 265; 266; 267; 268; 269; 270; 271; 272; 273; 274; 275; 276; 277; 278; 279; 280; 281; 282; 283; 284; 285; 286; 287; 288; 289; 290; 291; 292; 293; 294; 295; 296; 297; 298; 299; 300; 301; 302; 303; 304; 305; 306; 307; 308; 309]) (KAct BSLocal (KIf (CExt CSNotDash) (KAct BHostname KNil) KNil KNil)) (KIf (CCs [310; 311; 312; 313; 314; 315; 316; 317; 318; 319; 320; 321; 322; 323; 324; 325; 326; 327; 328; 329; 330; 331; 332; 333; 334; 335; 336; 337; 338; 339; 340; 341; 342; 343; 344; 345; 346; 347; 348; 349; 350; 351; 352; 353; 354; 355; 356; 357]) (KAct BSLocal (KIf (CExt CSNotDash) (KAct BAppname KNil) KNil KNil)) (KIf (CCs [358; 359; 360; 361; 362; 363; 364; 365; 366; 367; 368; 369; 370; 371; 372; 373; 374; 375; 376; 377; 378; 379; 380; 381; 382; 383; 384; 385; 386; 387; 388; 389; 390; 391; 392; 393; 394; 395; 396; 397; 398; 399; 400; 401; 402; 403; 404; 405; 406; 407; 408; 409; 410; 411; 412; 413; 414; 415; 416; 417; 418; 419; 420; 421; 422; 423; 424; 425; 426; 427; 428; 429; 430; 431; 432; 433; 434; 435; 436; 437; 438; 439; 440; 441; 442; 443; 444; 445; 446; 447; 448; 449; 450; 451; 452; 453; 454; 455; 456; 457; 458; 459; 460; 461; 462; 463; 464; 465; 466; 467; 468; 469; 470; 471; 472; 473; 474; 475; 476; 477; 478; 479; 480; 481; 482; 483; 484; 485]) (KAct BSLocal (KIf (CExt CSNotDash) (KAct BProcID KNil) KNil KNil)) (KIf (CCs [486; 487; 488; 489; 490; 491; 492; 493; 494; 495; 496; 497; 498; 499; 500; 501; 502; 503; 504; 505; 506; 507; 508; 509; 510; 511; 512; 513; 514; 515; 516; 517]) (KAct BSLocal (KIf (CExt CSNotDash) (KAct BMsgID KNil) KNil KNil)) (KIf (CCs [518; 519; 520; 521; 522; 523; 524; 525; 526; 527; 528; 529; 530; 531; 532; 533; 534; 535; 536; 537; 538; 539; 540; 541; 542; 543; 544; 545; 546; 547; 548; 549]) (KIf (CExt CSdNil) (KAct BSdInit KNil) KNil (KAct BIdLocal (KAct BElements (KAct BIdLookup (KIf (CExt CIdMissing) (KAct BSdNewElem KNil) KNil KNil))))) (KIf (CCs [550; 551; 552; 553; 554; 555; 556; 557; 558; 559; 560; 561; 562; 563; 564; 565; 566; 567; 568; 569; 570; 571; 572; 573; 574; 575; 576; 577; 578; 579; 580; 581]) (KAct BElements (KAct BSdNewParam KNil)) (KIf (CCs [583]) (KAct BTextLocal (KIf (CExt CHasBackslash) (KAct BTextStrip KNil) KNil (KAct BElements (KAct BSdSetParam KNil)))) (KIf (CCs [53]) (KAct BSLocal (KIf (CExt CSNonEmpty) (KAct BMessage KNil) KNil KNil)) (KIf (CCs [582]) (KAct BPb (KAct BTextLocal (KIf (CExt CHasBackslash) (KAct BTextStrip KNil) KNil (KAct BElements (KAct BSdSetParam KNil))))) (KIf (CCs [52]) (KAct BPb (KAct BSLocal (KIf (CExt CSNonEmpty) (KAct BMessage KNil) KNil KNil))) KNil KNil) KNil) KNil) KNil) KNil) KNil) KNil) KNil) KNil) KNil) KNil) KNil) KNil KNil));
  (* builder.go:9259 _out *) (LOut, KNil)
].

(* /repo/rfc5424/builder.go lines 77-9261: all blocks in source order *)
Definition progBuilder : list (label * code act cnd) :=
  progBuilder_0 ++ progBuilder_1 ++ progBuilder_2 ++ progBuilder_3 ++ progBuilder_4 ++ progBuilder_5 ++ progBuilder_6 ++ progBuilder_7 ++ progBuilder_8 ++ progBuilder_9 ++ progBuilder_10 ++ progBuilder_11 ++ progBuilder_12 ++ progBuilder_13 ++ progBuilder_14 ++ progBuilder_15 ++ progBuilder_16 ++ progBuilder_17 ++ progBuilder_18 ++ progBuilder_19 ++ progBuilder_20 ++ progBuilder_21 ++ progBuilder_22 ++ progBuilder_23 ++ progBuilder_24 ++ progBuilder_25 ++ progBuilder_26 ++ progBuilder_27 ++ progBuilder_28 ++ progBuilder_29.
