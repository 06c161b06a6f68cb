(* GENERATED by tools/ragel2coq.py from /repo/rfc5424/machine.go lines 129-12034. Do not edit. *)
(* One entry per Go label, in source order; the comment gives the line of the label. *)
From Coq Require Import List NArith.
From Verif Require Import GotoLang M5424Def.
Import ListNotations. Local Open Scope N_scope.

(* /repo/rfc5424/machine.go *)
Definition prog5424_0 : list (label * code act cnd) := [
  (* machine.go:129 entry *) (LEntry, (KIf CPe (KGoto LEof KNil) KNil (KBlk (KIf (CCs [1]) (KGoto (LCase 1) KNil) (KIf (CCs [0]) (KGoto (LCase 0) KNil) (KIf (CCs [2]) (KGoto (LCase 2) KNil) (KIf (CCs [3]) (KGoto (LCase 3) KNil) (KIf (CCs [4]) (KGoto (LCase 4) KNil) (KIf (CCs [5]) (KGoto (LCase 5) KNil) (KIf (CCs [6]) (KGoto (LCase 6) KNil) (KIf (CCs [7]) (KGoto (LCase 7) KNil) (KIf (CCs [8]) (KGoto (LCase 8) KNil) (KIf (CCs [9]) (KGoto (LCase 9) KNil) (KIf (CCs [10]) (KGoto (LCase 10) KNil) (KIf (CCs [11]) (KGoto (LCase 11) KNil) (KIf (CCs [12]) (KGoto (LCase 12) KNil) (KIf (CCs [13]) (KGoto (LCase 13) KNil) (KIf (CCs [14]) (KGoto (LCase 14) KNil) (KIf (CCs [15]) (KGoto (LCase 15) KNil) (KIf (CCs [16]) (KGoto (LCase 16) KNil) (KIf (CCs [603]) (KGoto (LCase 603) KNil) (KIf (CCs [604]) (KGoto (LCase 604) KNil) (KIf (CCs [605]) (KGoto (LCase 605) KNil) (KIf (CCs [17]) (KGoto (LCase 17) KNil) (KIf (CCs [18]) (KGoto (LCase 18) KNil) (KIf (CCs [19]) (KGoto (LCase 19) KNil) (KIf (CCs [20]) (KGoto (LCase 20) KNil) (KIf (CCs [21]) (KGoto (LCase 21) KNil) (KIf (CCs [22]) (KGoto (LCase 22) KNil) (KIf (CCs [23]) (KGoto (LCase 23) KNil) (KIf (CCs [24]) (KGoto (LCase 24) KNil) (KIf (CCs [25]) (KGoto (LCase 25) KNil) (KIf (CCs [26]) (KGoto (LCase 26) KNil) (KIf (CCs [27]) (KGoto (LCase 27) KNil) (KIf (CCs [28]) (KGoto (LCase 28) KNil) (KIf (CCs [29]) (KGoto (LCase 29) KNil) (KIf (CCs [30]) (KGoto (LCase 30) KNil) (KIf (CCs [31]) (KGoto (LCase 31) KNil) (KIf (CCs [32]) (KGoto (LCase 32) KNil) (KIf (CCs [33]) (KGoto (LCase 33) KNil) (KIf (CCs [34]) (KGoto (LCase 34) KNil) (KIf (CCs [35]) (KGoto (LCase 35) KNil) (KIf (CCs [36]) (KGoto (LCase 36) KNil) (KIf (CCs [37]) (KGoto (LCase 37) KNil) (KIf (CCs [38]) (KGoto (LCase 38) KNil) (KIf (CCs [39]) (KGoto (LCase 39) KNil) (KIf (CCs [40]) (KGoto (LCase 40) KNil) (KIf (CCs [41]) (KGoto (LCase 41) KNil) (KIf (CCs [42]) (KGoto (LCase 42) KNil) (KIf (CCs [43]) (KGoto (LCase 43) KNil) (KIf (CCs [44]) (KGoto (LCase 44) KNil) (KIf (CCs [45]) (KGoto (LCase 45) KNil) (KIf (CCs [46]) (KGoto (LCase 46) KNil) (KIf (CCs [47]) (KGoto (LCase 47) KNil) (KIf (CCs [48]) (KGoto (LCase 48) KNil) (KIf (CCs [49]) (KGoto (LCase 49) KNil) (KIf (CCs [50]) (KGoto (LCase 50) KNil) (KIf (CCs [51]) (KGoto (LCase 51) KNil) (KIf (CCs [52]) (KGoto (LCase 52) KNil) (KIf (CCs [53]) (KGoto (LCase 53) KNil) (KIf (CCs [54]) (KGoto (LCase 54) KNil) (KIf (CCs [55]) (KGoto (LCase 55) KNil) (KIf (CCs [606]) (KGoto (LCase 606) KNil) (KIf (CCs [56]) (KGoto (LCase 56) KNil) (KIf (CCs [57]) (KGoto (LCase 57) KNil) (KIf (CCs [58]) (KGoto (LCase 58) KNil) (KIf (CCs [59]) (KGoto (LCase 59) KNil) (KIf (CCs [60]) (KGoto (LCase 60) KNil) (KIf (CCs [61]) (KGoto (LCase 61) KNil) (KIf (CCs [62]) (KGoto (LCase 62) KNil) (KIf (CCs [63]) (KGoto (LCase 63) KNil) (KIf (CCs [64]) (KGoto (LCase 64) KNil) (KIf (CCs [65]) (KGoto (LCase 65) KNil) (KIf (CCs [66]) (KGoto (LCase 66) KNil) (KIf (CCs [67]) (KGoto (LCase 67) KNil) (KIf (CCs [68]) (KGoto (LCase 68) KNil) (KIf (CCs [69]) (KGoto (LCase 69) KNil) (KIf (CCs [70]) (KGoto (LCase 70) KNil) (KIf (CCs [71]) (KGoto (LCase 71) KNil) (KIf (CCs [72]) (KGoto (LCase 72) KNil) (KIf (CCs [73]) (KGoto (LCase 73) KNil) (KIf (CCs [74]) (KGoto (LCase 74) KNil) (KIf (CCs [75]) (KGoto (LCase 75) KNil) (KIf (CCs [76]) (KGoto (LCase 76) KNil) (KIf (CCs [77]) (KGoto (LCase 77) KNil) (KIf (CCs [78]) (KGoto (LCase 78) KNil) (KIf (CCs [79]) (KGoto (LCase 79) KNil) (KIf (CCs [80]) (KGoto (LCase 80) KNil) (KIf (CCs [81]) (KGoto (LCase 81) KNil) (KIf (CCs [82]) (KGoto (LCase 82) KNil) (KIf (CCs [83]) (KGoto (LCase 83) KNil) (KIf (CCs [84]) (KGoto (LCase 84) KNil) (KIf (CCs [85]) (KGoto (LCase 85) KNil) (KIf (CCs [86]) (KGoto (LCase 86) KNil) (KIf (CCs [87]) (KGoto (LCase 87) KNil) (KIf (CCs [88]) (KGoto (LCase 88) KNil) (KIf (CCs [89]) (KGoto (LCase 89) KNil) (KIf (CCs [90]) (KGoto (LCase 90) KNil) (KIf (CCs [91]) (KGoto (LCase 91) KNil) (KIf (CCs [92]) (KGoto (LCase 92) KNil) (KIf (CCs [93]) (KGoto (LCase 93) KNil) (KIf (CCs [94]) (KGoto (LCase 94) KNil) (KIf (CCs [95]) (KGoto (LCase 95) KNil) (KIf (CCs [96]) (KGoto (LCase 96) KNil) (KIf (CCs [97]) (KGoto (LCase 97) KNil) (KIf (CCs [98]) (KGoto (LCase 98) KNil) (KIf (CCs [99]) (KGoto (LCase 99) KNil) (KIf (CCs [100]) (KGoto (LCase 100) KNil) (KIf (CCs [101]) (KGoto (LCase 101) KNil) (KIf (CCs [102]) (KGoto (LCase 102) KNil) (KIf (CCs [103]) (KGoto (LCase 103) KNil) (KIf (CCs [104]) (KGoto (LCase 104) KNil) (KIf (CCs [105]) (KGoto (LCase 105) KNil) (KIf (CCs [106]) (KGoto (LCase 106) KNil) (KIf (CCs [107]) (KGoto (LCase 107) KNil) (KIf (CCs [108]) (KGoto (LCase 108) KNil) (KIf (CCs [109]) (KGoto (LCase 109) KNil) (KIf (CCs [110]) (KGoto (LCase 110) KNil) (KIf (CCs [111]) (KGoto (LCase 111) KNil) (KIf (CCs [112]) (KGoto (LCase 112) KNil) (KIf (CCs [113]) (KGoto (LCase 113) KNil) (KIf (CCs [114]) (KGoto (LCase 114) KNil) (KIf (CCs [115]) (KGoto (LCase 115) KNil) (KIf (CCs [116]) (KGoto (LCase 116) KNil) (KIf (CCs [117]) (KGoto (LCase 117) KNil) (KIf (CCs [118]) (KGoto (LCase 118) KNil) (KIf (CCs [119]) (KGoto (LCase 119) KNil) (KIf (CCs [120]) (KGoto (LCase 120) KNil) (KIf (CCs [121]) (KGoto (LCase 121) KNil) (KIf (CCs [122]) (KGoto (LCase 122) KNil) (KIf (CCs [123]) (KGoto (LCase 123) KNil) (KIf (CCs [124]) (KGoto (LCase 124) KNil) (KIf (CCs [125]) (KGoto (LCase 125) KNil) (KIf (CCs [126]) (KGoto (LCase 126) KNil) (KIf (CCs [127]) (KGoto (LCase 127) KNil) (KIf (CCs [128]) (KGoto (LCase 128) KNil) (KIf (CCs [129]) (KGoto (LCase 129) KNil) (KIf (CCs [130]) (KGoto (LCase 130) KNil) (KIf (CCs [131]) (KGoto (LCase 131) KNil) (KIf (CCs [132]) (KGoto (LCase 132) KNil) (KIf (CCs [133]) (KGoto (LCase 133) KNil) (KIf (CCs [134]) (KGoto (LCase 134) KNil) (KIf (CCs [135]) (KGoto (LCase 135) KNil) (KIf (CCs [136]) (KGoto (LCase 136) KNil) (KIf (CCs [137]) (KGoto (LCase 137) KNil) (KIf (CCs [138]) (KGoto (LCase 138) KNil) (KIf (CCs [139]) (KGoto (LCase 139) KNil) (KIf (CCs [140]) (KGoto (LCase 140) KNil) (KIf (CCs [141]) (KGoto (LCase 141) KNil) (KIf (CCs [142]) (KGoto (LCase 142) KNil) (KIf (CCs [143]) (KGoto (LCase 143) KNil) (KIf (CCs [144]) (KGoto (LCase 144) KNil) (KIf (CCs [145]) (KGoto (LCase 145) KNil) (KIf (CCs [146]) (KGoto (LCase 146) KNil) (KIf (CCs [147]) (KGoto (LCase 147) KNil) (KIf (CCs [148]) (KGoto (LCase 148) KNil) (KIf (CCs [149]) (KGoto (LCase 149) KNil) (KIf (CCs [150]) (KGoto (LCase 150) KNil) (KIf (CCs [151]) (KGoto (LCase 151) KNil) (KIf (CCs [152]) (KGoto (LCase 152) KNil) (KIf (CCs [153]) (KGoto (LCase 153) KNil) (KIf (CCs [154]) (KGoto (LCase 154) KNil) (KIf (CCs [155]) (KGoto (LCase 155) KNil) (KIf (CCs [156]) (KGoto (LCase 156) KNil) (KIf (CCs [157]) (KGoto (LCase 157) KNil) (KIf (CCs [158]) (KGoto (LCase 158) KNil) (KIf (CCs [159]) (KGoto (LCase 159) KNil) (KIf (CCs [160]) (KGoto (LCase 160) KNil) (KIf (CCs [161]) (KGoto (LCase 161) KNil) (KIf (CCs [162]) (KGoto (LCase 162) KNil) (KIf (CCs [163]) (KGoto (LCase 163) KNil) (KIf (CCs [164]) (KGoto (LCase 164) KNil) (KIf (CCs [165]) (KGoto (LCase 165) KNil) (KIf (CCs [166]) (KGoto (LCase 166) KNil) (KIf (CCs [167]) (KGoto (LCase 167) KNil) (KIf (CCs [168]) (KGoto (LCase 168) KNil) (KIf (CCs [169]) (KGoto (LCase 169) KNil) (KIf (CCs [170]) (KGoto (LCase 170) KNil) (KIf (CCs [171]) (KGoto (LCase 171) KNil) (KIf (CCs [172]) (KGoto (LCase 172) KNil) (KIf (CCs [173]) (KGoto (LCase 173) KNil) (KIf (CCs [174]) (KGoto (LCase 174) KNil) (KIf (CCs [175]) (KGoto (LCase 175) KNil) (KIf (CCs [176]) (KGoto (LCase 176) KNil) (KIf (CCs [177]) (KGoto (LCase 177) KNil) (KIf (CCs [178]) (KGoto (LCase 178) KNil) (KIf (CCs [179]) (KGoto (LCase 179) KNil) (KIf (CCs [180]) (KGoto (LCase 180) KNil) (KIf (CCs [181]) (KGoto (LCase 181) KNil) (KIf (CCs [182]) (KGoto (LCase 182) KNil) (KIf (CCs [183]) (KGoto (LCase 183) KNil) (KIf (CCs [184]) (KGoto (LCase 184) KNil) (KIf (CCs [185]) (KGoto (LCase 185) KNil) (KIf (CCs [186]) (KGoto (LCase 186) KNil) (KIf (CCs [187]) (KGoto (LCase 187) KNil) (KIf (CCs [188]) (KGoto (LCase 188) KNil) (KIf (CCs [189]) (KGoto (LCase 189) KNil) (KIf (CCs [190]) (KGoto (LCase 190) KNil) (KIf (CCs [191]) (KGoto (LCase 191) KNil) (KIf (CCs [192]) (KGoto (LCase 192) KNil) (KIf (CCs [193]) (KGoto (LCase 193) KNil) (KIf (CCs [194]) (KGoto (LCase 194) KNil) (KIf (CCs [195]) (KGoto (LCase 195) KNil) (KIf (CCs [196]) (KGoto (LCase 196) KNil) (KIf (CCs [197]) (KGoto (LCase 197) KNil) (KIf (CCs [198]) (KGoto (LCase 198) KNil) (KIf (CCs [199]) (KGoto (LCase 199) KNil) (KIf (CCs [200]) (KGoto (LCase 200) KNil) (KIf (CCs [201]) (KGoto (LCase 201) KNil) (KIf (CCs [202]) (KGoto (LCase 202) KNil) (KIf (CCs [203]) (KGoto (LCase 203) KNil) (KIf (CCs [204]) (KGoto (LCase 204) KNil) (KIf (CCs [205]) (KGoto (LCase 205) KNil) (KIf (CCs [206]) (KGoto (LCase 206) KNil) (KIf (CCs [207]) (KGoto (LCase 207) KNil) (KIf (CCs [208]) (KGoto (LCase 208) KNil) (KIf (CCs [209]) (KGoto (LCase 209) KNil) (KIf (CCs [210]) (KGoto (LCase 210) KNil) (KIf (CCs [211]) (KGoto (LCase 211) KNil) (KIf (CCs [212]) (KGoto (LCase 212) KNil) (KIf (CCs [213]) (KGoto (LCase 213) KNil) (KIf (CCs [214]) (KGoto (LCase 214) KNil) (KIf (CCs [215]) (KGoto (LCase 215) KNil) (KIf (CCs [216]) (KGoto (LCase 216) KNil) (KIf (CCs [217]) (KGoto (LCase 217) KNil) (KIf (CCs [218]) (KGoto (LCase 218) KNil) (KIf (CCs [219]) (KGoto (LCase 219) KNil) (KIf (CCs [220]) (KGoto (LCase 220) KNil) (KIf (CCs [221]) (KGoto (LCase 221) KNil) (KIf (CCs [222]) (KGoto (LCase 222) KNil) (KIf (CCs [223]) (KGoto (LCase 223) KNil) (KIf (CCs [224]) (KGoto (LCase 224) KNil) (KIf (CCs [225]) (KGoto (LCase 225) KNil) (KIf (CCs [226]) (KGoto (LCase 226) KNil) (KIf (CCs [227]) (KGoto (LCase 227) KNil) (KIf (CCs [228]) (KGoto (LCase 228) KNil) (KIf (CCs [229]) (KGoto (LCase 229) KNil) (KIf (CCs [230]) (KGoto (LCase 230) KNil) (KIf (CCs [231]) (KGoto (LCase 231) KNil) (KIf (CCs [232]) (KGoto (LCase 232) KNil) (KIf (CCs [233]) (KGoto (LCase 233) KNil) (KIf (CCs [234]) (KGoto (LCase 234) KNil) (KIf (CCs [235]) (KGoto (LCase 235) KNil) (KIf (CCs [236]) (KGoto (LCase 236) KNil) (KIf (CCs [237]) (KGoto (LCase 237) KNil) (KIf (CCs [238]) (KGoto (LCase 238) KNil) (KIf (CCs [239]) (KGoto (LCase 239) KNil) (KIf (CCs [240]) (KGoto (LCase 240) KNil) (KIf (CCs [241]) (KGoto (LCase 241) KNil) (KIf (CCs [242]) (KGoto (LCase 242) KNil) (KIf (CCs [243]) (KGoto (LCase 243) KNil) (KIf (CCs [244]) (KGoto (LCase 244) KNil) (KIf (CCs [245]) (KGoto (LCase 245) KNil) (KIf (CCs [246]) (KGoto (LCase 246) KNil) (KIf (CCs [247]) (KGoto (LCase 247) KNil) (KIf (CCs [248]) (KGoto (LCase 248) KNil) (KIf (CCs [249]) (KGoto (LCase 249) KNil) (KIf (CCs [250]) (KGoto (LCase 250) KNil) (KIf (CCs [251]) (KGoto (LCase 251) KNil) (KIf (CCs [252]) (KGoto (LCase 252) KNil) (KIf (CCs [253]) (KGoto (LCase 253) KNil) (KIf (CCs [254]) (KGoto (LCase 254) KNil) (KIf (CCs [255]) (KGoto (LCase 255) KNil) (KIf (CCs [256]) (KGoto (LCase 256) KNil) (KIf (CCs [257]) (KGoto (LCase 257) KNil) (KIf (CCs [258]) (KGoto (LCase 258) KNil) (KIf (CCs [259]) (KGoto (LCase 259) KNil) (KIf (CCs [260]) (KGoto (LCase 260) KNil) (KIf (CCs [261]) (KGoto (LCase 261) KNil) (KIf (CCs [262]) (KGoto (LCase 262) KNil) (KIf (CCs [263]) (KGoto (LCase 263) KNil) (KIf (CCs [264]) (KGoto (LCase 264) KNil) (KIf (CCs [265]) (KGoto (LCase 265) KNil) (KIf (CCs [266]) (KGoto (LCase 266) KNil) (KIf (CCs [267]) (KGoto (LCase 267) KNil) (KIf (CCs [268]) (KGoto (LCase 268) KNil) (KIf (CCs [269]) (KGoto (LCase 269) KNil) (KIf (CCs [270]) (KGoto (LCase 270) KNil) (KIf (CCs [271]) (KGoto (LCase 271) KNil) (KIf (CCs [272]) (KGoto (LCase 272) KNil) (KIf (CCs [273]) (KGoto (LCase 273) KNil) (KIf (CCs [274]) (KGoto (LCase 274) KNil) (KIf (CCs [275]) (KGoto (LCase 275) KNil) (KIf (CCs [276]) (KGoto (LCase 276) KNil) (KIf (CCs [277]) (KGoto (LCase 277) KNil) (KIf (CCs [278]) (KGoto (LCase 278) KNil) (KIf (CCs [279]) (KGoto (LCase 279) KNil) (KIf (CCs [280]) (KGoto (LCase 280) KNil) (KIf (CCs [281]) (KGoto (LCase 281) KNil) (KIf (CCs [282]) (KGoto (LCase 282) KNil) (KIf (CCs [283]) (KGoto (LCase 283) KNil) (KIf (CCs [284]) (KGoto (LCase 284) KNil) (KIf (CCs [285]) (KGoto (LCase 285) KNil) (KIf (CCs [286]) (KGoto (LCase 286) KNil) (KIf (CCs [287]) (KGoto (LCase 287) KNil) (KIf (CCs [288]) (KGoto (LCase 288) KNil) (KIf (CCs [289]) (KGoto (LCase 289) KNil) (KIf (CCs [290]) (KGoto (LCase 290) KNil) (KIf (CCs [291]) (KGoto (LCase 291) KNil) (KIf (CCs [292]) (KGoto (LCase 292) KNil) (KIf (CCs [293]) (KGoto (LCase 293) KNil) (KIf (CCs [294]) (KGoto (LCase 294) KNil) (KIf (CCs [295]) (KGoto (LCase 295) KNil) (KIf (CCs [296]) (KGoto (LCase 296) KNil) (KIf (CCs [297]) (KGoto (LCase 297) KNil) (KIf (CCs [298]) (KGoto (LCase 298) KNil) (KIf (CCs [299]) (KGoto (LCase 299) KNil) (KIf (CCs [300]) (KGoto (LCase 300) KNil) (KIf (CCs [301]) (KGoto (LCase 301) KNil) (KIf (CCs [302]) (KGoto (LCase 302) KNil) (KIf (CCs [303]) (KGoto (LCase 303) KNil) (KIf (CCs [304]) (KGoto (LCase 304) KNil) (KIf (CCs [305]) (KGoto (LCase 305) KNil) (KIf (CCs [306]) (KGoto (LCase 306) KNil) (KIf (CCs [307]) (KGoto (LCase 307) KNil) (KIf (CCs [308]) (KGoto (LCase 308) KNil) (KIf (CCs [309]) (KGoto (LCase 309) KNil) (KIf (CCs [310]) (KGoto (LCase 310) KNil) (KIf (CCs [311]) (KGoto (LCase 311) KNil) (KIf (CCs [312]) (KGoto (LCase 312) KNil) (KIf (CCs [313]) (KGoto (LCase 313) KNil) (KIf (CCs [314]) (KGoto (LCase 314) KNil) (KIf (CCs [315]) (KGoto (LCase 315) KNil) (KIf (CCs [316]) (KGoto (LCase 316) KNil) (KIf (CCs [317]) (KGoto (LCase 317) KNil) (KIf (CCs [318]) (KGoto (LCase 318) KNil) (KIf (CCs [319]) (KGoto (LCase 319) KNil) (KIf (CCs [320]) (KGoto (LCase 320) KNil) (KIf (CCs [321]) (KGoto (LCase 321) KNil) (KIf (CCs [322]) (KGoto (LCase 322) KNil) (KIf (CCs [323]) (KGoto (LCase 323) KNil) (KIf (CCs [324]) (KGoto (LCase 324) KNil) (KIf (CCs [325]) (KGoto (LCase 325) KNil) (KIf (CCs [326]) (KGoto (LCase 326) KNil) (KIf (CCs [327]) (KGoto (LCase 327) KNil) (KIf (CCs [328]) (KGoto (LCase 328) KNil) (KIf (CCs [329]) (KGoto (LCase 329) KNil) (KIf (CCs [330]) (KGoto (LCase 330) KNil) (KIf (CCs [331]) (KGoto (LCase 331) KNil) (KIf (CCs [332]) (KGoto (LCase 332) KNil) (KIf (CCs [333]) (KGoto (LCase 333) KNil) (KIf (CCs [334]) (KGoto (LCase 334) KNil) (KIf (CCs [335]) (KGoto (LCase 335) KNil) (KIf (CCs [336]) (KGoto (LCase 336) KNil) (KIf (CCs [337]) (KGoto (LCase 337) KNil) (KIf (CCs [338]) (KGoto (LCase 338) KNil) (KIf (CCs [339]) (KGoto (LCase 339) KNil) (KIf (CCs [340]) (KGoto (LCase 340) KNil) (KIf (CCs [341]) (KGoto (LCase 341) KNil) (KIf (CCs [342]) (KGoto (LCase 342) KNil) (KIf (CCs [343]) (KGoto (LCase 343) KNil) (KIf (CCs [344]) (KGoto (LCase 344) KNil) (KIf (CCs [345]) (KGoto (LCase 345) KNil) (KIf (CCs [346]) (KGoto (LCase 346) KNil) (KIf (CCs [347]) (KGoto (LCase 347) KNil) (KIf (CCs [348]) (KGoto (LCase 348) KNil) (KIf (CCs [349]) (KGoto (LCase 349) KNil) (KIf (CCs [350]) (KGoto (LCase 350) KNil) (KIf (CCs [351]) (KGoto (LCase 351) KNil) (KIf (CCs [352]) (KGoto (LCase 352) KNil) (KIf (CCs [353]) (KGoto (LCase 353) KNil) (KIf (CCs [354]) (KGoto (LCase 354) KNil) (KIf (CCs [355]) (KGoto (LCase 355) KNil) (KIf (CCs [356]) (KGoto (LCase 356) KNil) (KIf (CCs [357]) (KGoto (LCase 357) KNil) (KIf (CCs [358]) (KGoto (LCase 358) KNil) (KIf (CCs [359]) (KGoto (LCase 359) KNil) (KIf (CCs [360]) (KGoto (LCase 360) KNil) (KIf (CCs [361]) (KGoto (LCase 361) KNil) (KIf (CCs [362]) (KGoto (LCase 362) KNil) (KIf (CCs [363]) (KGoto (LCase 363) KNil) (KIf (CCs [364]) (KGoto (LCase 364) KNil) (KIf (CCs [365]) (KGoto (LCase 365) KNil) (KIf (CCs [366]) (KGoto (LCase 366) KNil) (KIf (CCs [367]) (KGoto (LCase 367) KNil) (KIf (CCs [368]) (KGoto (LCase 368) KNil) (KIf (CCs [369]) (KGoto (LCase 369) KNil) (KIf (CCs [370]) (KGoto (LCase 370) KNil) (KIf (CCs [371]) (KGoto (LCase 371) KNil) (KIf (CCs [372]) (KGoto (LCase 372) KNil) (KIf (CCs [373]) (KGoto (LCase 373) KNil) (KIf (CCs [374]) (KGoto (LCase 374) KNil) (KIf (CCs [375]) (KGoto (LCase 375) KNil) (KIf (CCs [376]) (KGoto (LCase 376) KNil) (KIf (CCs [377]) (KGoto (LCase 377) KNil) (KIf (CCs [378]) (KGoto (LCase 378) KNil) (KIf (CCs [379]) (KGoto (LCase 379) KNil) (KIf (CCs [380]) (KGoto (LCase 380) KNil) (KIf (CCs [381]) (KGoto (LCase 381) KNil) (KIf (CCs [382]) (KGoto (LCase 382) KNil) (KIf (CCs [383]) (KGoto (LCase 383) KNil) (KIf (CCs [384]) (KGoto (LCase 384) KNil) (KIf (CCs [385]) (KGoto (LCase 385) KNil) (KIf (CCs [386]) (KGoto (LCase 386) KNil) (KIf (CCs [387]) (KGoto (LCase 387) KNil) (KIf (CCs [388]) (KGoto (LCase 388) KNil) (KIf (CCs [389]) (KGoto (LCase 389) KNil) (KIf (CCs [390]) (KGoto (LCase 390) KNil) (KIf (CCs [391]) (KGoto (LCase 391) KNil) (KIf (CCs [392]) (KGoto (LCase 392) KNil) (KIf (CCs [393]) (KGoto (LCase 393) KNil) (KIf (CCs [394]) (KGoto (LCase 394) KNil) (KIf (CCs [395]) (KGoto (LCase 395) KNil) (KIf (CCs [396]) (KGoto (LCase 396) KNil) (KIf (CCs [397]) (KGoto (LCase 397) KNil) (KIf (CCs [398]) (KGoto (LCase 398) KNil) (KIf (CCs [399]) (KGoto (LCase 399) KNil) (KIf (CCs [400]) (KGoto (LCase 400) KNil) (KIf (CCs [401]) (KGoto (LCase 401) KNil) (KIf (CCs [402]) (KGoto (LCase 402) KNil) (KIf (CCs [403]) (KGoto (LCase 403) KNil) (KIf (CCs [404]) (KGoto (LCase 404) KNil) (KIf (CCs [405]) (KGoto (LCase 405) KNil) (KIf (CCs [406]) (KGoto (LCase 406) KNil) (KIf (CCs [407]) (KGoto (LCase 407) KNil) (KIf (CCs [408]) (KGoto (LCase 408) KNil) (KIf (CCs [409]) (KGoto (LCase 409) KNil) (KIf (CCs [410]) (KGoto (LCase 410) KNil) (KIf (CCs [411]) (KGoto (LCase 411) KNil) (KIf (CCs [412]) (KGoto (LCase 412) KNil) (KIf (CCs [413]) (KGoto (LCase 413) KNil) (KIf (CCs [414]) (KGoto (LCase 414) KNil) (KIf (CCs [415]) (KGoto (LCase 415) KNil) (KIf (CCs [416]) (KGoto (LCase 416) KNil) (KIf (CCs [417]) (KGoto (LCase 417) KNil) (KIf (CCs [418]) (KGoto (LCase 418) KNil) (KIf (CCs [419]) (KGoto (LCase 419) KNil) (KIf (CCs [420]) (KGoto (LCase 420) KNil) (KIf (CCs [421]) (KGoto (LCase 421) KNil) (KIf (CCs [422]) (KGoto (LCase 422) KNil) (KIf (CCs [423]) (KGoto (LCase 423) KNil) (KIf (CCs [424]) (KGoto (LCase 424) KNil) (KIf (CCs [425]) (KGoto (LCase 425) KNil) (KIf (CCs [426]) (KGoto (LCase 426) KNil) (KIf (CCs [427]) (KGoto (LCase 427) KNil) (KIf (CCs [428]) (KGoto (LCase 428) KNil) (KIf (CCs [429]) (KGoto (LCase 429) KNil) (KIf (CCs [430]) (KGoto (LCase 430) KNil) (KIf (CCs [431]) (KGoto (LCase 431) KNil) (KIf (CCs [432]) (KGoto (LCase 432) KNil) (KIf (CCs [433]) (KGoto (LCase 433) KNil) (KIf (CCs [434]) (KGoto (LCase 434) KNil) (KIf (CCs [435]) (KGoto (LCase 435) KNil) (KIf (CCs [436]) (KGoto (LCase 436) KNil) (KIf (CCs [437]) (KGoto (LCase 437) KNil) (KIf (CCs [438]) (KGoto (LCase 438) KNil) (KIf (CCs [439]) (KGoto (LCase 439) KNil) (KIf (CCs [440]) (KGoto (LCase 440) KNil) (KIf (CCs [441]) (KGoto (LCase 441) KNil) (KIf (CCs [442]) (KGoto (LCase 442) KNil) (KIf (CCs [443]) (KGoto (LCase 443) KNil) (KIf (CCs [444]) (KGoto (LCase 444) KNil) (KIf (CCs [445]) (KGoto (LCase 445) KNil) (KIf (CCs [446]) (KGoto (LCase 446) KNil) (KIf (CCs [447]) (KGoto (LCase 447) KNil) (KIf (CCs [448]) (KGoto (LCase 448) KNil) (KIf (CCs [449]) (KGoto (LCase 449) KNil) (KIf (CCs [450]) (KGoto (LCase 450) KNil) (KIf (CCs [451]) (KGoto (LCase 451) KNil) (KIf (CCs [452]) (KGoto (LCase 452) KNil) (KIf (CCs [453]) (KGoto (LCase 453) KNil) (KIf (CCs [454]) (KGoto (LCase 454) KNil) (KIf (CCs [455]) (KGoto (LCase 455) KNil) (KIf (CCs [456]) (KGoto (LCase 456) KNil) (KIf (CCs [457]) (KGoto (LCase 457) KNil) (KIf (CCs [458]) (KGoto (LCase 458) KNil) (KIf (CCs [459]) (KGoto (LCase 459) KNil) (KIf (CCs [460]) (KGoto (LCase 460) KNil) (KIf (CCs [461]) (KGoto (LCase 461) KNil) (KIf (CCs [462]) (KGoto (LCase 462) KNil) (KIf (CCs [463]) (KGoto (LCase 463) KNil) (KIf (CCs [464]) (KGoto (LCase 464) KNil) (KIf (CCs [465]) (KGoto (LCase 465) KNil) (KIf (CCs [466]) (KGoto (LCase 466) KNil) (KIf (CCs [467]) (KGoto (LCase 467) KNil) (KIf (CCs [468]) (KGoto (LCase 468) KNil) (KIf (CCs [469]) (KGoto (LCase 469) KNil) (KIf (CCs [470]) (KGoto (LCase 470) KNil) (KIf (CCs [471]) (KGoto (LCase 471) KNil) (KIf (CCs [472]) (KGoto (LCase 472) KNil) (KIf (CCs [473]) (KGoto (LCase 473) KNil) (KIf (CCs [474]) (KGoto (LCase 474) KNil) (KIf (CCs [475]) (KGoto (LCase 475) KNil) (KIf (CCs [476]) (KGoto (LCase 476) KNil) (KIf (CCs [477]) (KGoto (LCase 477) KNil) (KIf (CCs [478]) (KGoto (LCase 478) KNil) (KIf (CCs [479]) (KGoto (LCase 479) KNil) (KIf (CCs [480]) (KGoto (LCase 480) KNil) (KIf (CCs [481]) (KGoto (LCase 481) KNil) (KIf (CCs [482]) (KGoto (LCase 482) KNil) (KIf (CCs [483]) (KGoto (LCase 483) KNil) (KIf (CCs [484]) (KGoto (LCase 484) KNil) (KIf (CCs [485]) (KGoto (LCase 485) KNil) (KIf (CCs [486]) (KGoto (LCase 486) KNil) (KIf (CCs [487]) (KGoto (LCase 487) KNil) (KIf (CCs [488]) (KGoto (LCase 488) KNil) (KIf (CCs [489]) (KGoto (LCase 489) KNil) (KIf (CCs [490]) (KGoto (LCase 490) KNil) (KIf (CCs [491]) (KGoto (LCase 491) KNil) (KIf (CCs [492]) (KGoto (LCase 492) KNil) (KIf (CCs [493]) (KGoto (LCase 493) KNil) (KIf (CCs [494]) (KGoto (LCase 494) KNil) (KIf (CCs [495]) (KGoto (LCase 495) KNil) (KIf (CCs [496]) (KGoto (LCase 496) KNil) (KIf (CCs [497]) (KGoto (LCase 497) KNil) (KIf (CCs [498]) (KGoto (LCase 498) KNil) (KIf (CCs [499]) (KGoto (LCase 499) KNil) (KIf (CCs [500]) (KGoto (LCase 500) KNil) (KIf (CCs [501]) (KGoto (LCase 501) KNil) (KIf (CCs [502]) (KGoto (LCase 502) KNil) (KIf (CCs [503]) (KGoto (LCase 503) KNil) (KIf (CCs [504]) (KGoto (LCase 504) KNil) (KIf (CCs [505]) (KGoto (LCase 505) KNil) (KIf (CCs [506]) (KGoto (LCase 506) KNil) (KIf (CCs [507]) (KGoto (LCase 507) KNil) (KIf (CCs [508]) (KGoto (LCase 508) KNil) (KIf (CCs [509]) (KGoto (LCase 509) KNil) (KIf (CCs [510]) (KGoto (LCase 510) KNil) (KIf (CCs [511]) (KGoto (LCase 511) KNil) (KIf (CCs [512]) (KGoto (LCase 512) KNil) (KIf (CCs [513]) (KGoto (LCase 513) KNil) (KIf (CCs [514]) (KGoto (LCase 514) KNil) (KIf (CCs [515]) (KGoto (LCase 515) KNil) (KIf (CCs [516]) (KGoto (LCase 516) KNil) (KIf (CCs [517]) (KGoto (LCase 517) KNil) (KIf (CCs [518]) (KGoto (LCase 518) KNil) (KIf (CCs [519]) (KGoto (LCase 519) KNil) (KIf (CCs [520]) (KGoto (LCase 520) KNil) (KIf (CCs [521]) (KGoto (LCase 521) KNil) (KIf (CCs [522]) (KGoto (LCase 522) KNil) (KIf (CCs [523]) (KGoto (LCase 523) KNil) (KIf (CCs [524]) (KGoto (LCase 524) KNil) (KIf (CCs [525]) (KGoto (LCase 525) KNil) (KIf (CCs [526]) (KGoto (LCase 526) KNil) (KIf (CCs [527]) (KGoto (LCase 527) KNil) (KIf (CCs [528]) (KGoto (LCase 528) KNil) (KIf (CCs [529]) (KGoto (LCase 529) KNil) (KIf (CCs [530]) (KGoto (LCase 530) KNil) (KIf (CCs [531]) (KGoto (LCase 531) KNil) (KIf (CCs [532]) (KGoto (LCase 532) KNil) (KIf (CCs [533]) (KGoto (LCase 533) KNil) (KIf (CCs [534]) (KGoto (LCase 534) KNil) (KIf (CCs [535]) (KGoto (LCase 535) KNil) (KIf (CCs [536]) (KGoto (LCase 536) KNil) (KIf (CCs [537]) (KGoto (LCase 537) KNil) (KIf (CCs [538]) (KGoto (LCase 538) KNil) (KIf (CCs [539]) (KGoto (LCase 539) KNil) (KIf (CCs [540]) (KGoto (LCase 540) KNil) (KIf (CCs [541]) (KGoto (LCase 541) KNil) (KIf (CCs [542]) (KGoto (LCase 542) KNil) (KIf (CCs [543]) (KGoto (LCase 543) KNil) (KIf (CCs [544]) (KGoto (LCase 544) KNil) (KIf (CCs [545]) (KGoto (LCase 545) KNil) (KIf (CCs [546]) (KGoto (LCase 546) KNil) (KIf (CCs [547]) (KGoto (LCase 547) KNil) (KIf (CCs [548]) (KGoto (LCase 548) KNil) (KIf (CCs [549]) (KGoto (LCase 549) KNil) (KIf (CCs [550]) (KGoto (LCase 550) KNil) (KIf (CCs [551]) (KGoto (LCase 551) KNil) (KIf (CCs [552]) (KGoto (LCase 552) KNil) (KIf (CCs [553]) (KGoto (LCase 553) KNil) (KIf (CCs [554]) (KGoto (LCase 554) KNil) (KIf (CCs [555]) (KGoto (LCase 555) KNil) (KIf (CCs [556]) (KGoto (LCase 556) KNil) (KIf (CCs [557]) (KGoto (LCase 557) KNil) (KIf (CCs [558]) (KGoto (LCase 558) KNil) (KIf (CCs [559]) (KGoto (LCase 559) KNil) (KIf (CCs [560]) (KGoto (LCase 560) KNil) (KIf (CCs [561]) (KGoto (LCase 561) KNil) (KIf (CCs [562]) (KGoto (LCase 562) KNil) (KIf (CCs [563]) (KGoto (LCase 563) KNil) (KIf (CCs [564]) (KGoto (LCase 564) KNil) (KIf (CCs [565]) (KGoto (LCase 565) KNil) (KIf (CCs [566]) (KGoto (LCase 566) KNil) (KIf (CCs [567]) (KGoto (LCase 567) KNil) (KIf (CCs [568]) (KGoto (LCase 568) KNil) (KIf (CCs [569]) (KGoto (LCase 569) KNil) (KIf (CCs [570]) (KGoto (LCase 570) KNil) (KIf (CCs [571]) (KGoto (LCase 571) KNil) (KIf (CCs [572]) (KGoto (LCase 572) KNil) (KIf (CCs [573]) (KGoto (LCase 573) KNil) (KIf (CCs [574]) (KGoto (LCase 574) KNil) (KIf (CCs [575]) (KGoto (LCase 575) KNil) (KIf (CCs [576]) (KGoto (LCase 576) KNil) (KIf (CCs [577]) (KGoto (LCase 577) KNil) (KIf (CCs [578]) (KGoto (LCase 578) KNil) (KIf (CCs [579]) (KGoto (LCase 579) KNil) (KIf (CCs [580]) (KGoto (LCase 580) KNil) (KIf (CCs [581]) (KGoto (LCase 581) KNil) (KIf (CCs [582]) (KGoto (LCase 582) KNil) (KIf (CCs [583]) (KGoto (LCase 583) KNil) (KIf (CCs [584]) (KGoto (LCase 584) KNil) (KIf (CCs [585]) (KGoto (LCase 585) KNil) (KIf (CCs [586]) (KGoto (LCase 586) KNil) (KIf (CCs [587]) (KGoto (LCase 587) KNil) (KIf (CCs [588]) (KGoto (LCase 588) KNil) (KIf (CCs [589]) (KGoto (LCase 589) KNil) (KIf (CCs [590]) (KGoto (LCase 590) KNil) (KIf (CCs [591]) (KGoto (LCase 591) KNil) (KIf (CCs [592]) (KGoto (LCase 592) KNil) (KIf (CCs [593]) (KGoto (LCase 593) KNil) (KIf (CCs [594]) (KGoto (LCase 594) KNil) (KIf (CCs [595]) (KGoto (LCase 595) KNil) (KIf (CCs [607]) (KGoto (LCase 607) KNil) (KIf (CCs [608]) (KGoto (LCase 608) KNil) (KIf (CCs [609]) (KGoto (LCase 609) KNil) (KIf (CCs [610]) (KGoto (LCase 610) KNil) (KIf (CCs [611]) (KGoto (LCase 611) KNil) (KIf (CCs [612]) (KGoto (LCase 612) KNil) (KIf (CCs [613]) (KGoto (LCase 613) KNil) (KIf (CCs [596]) (KGoto (LCase 596) KNil) (KIf (CCs [597]) (KGoto (LCase 597) KNil) (KIf (CCs [598]) (KGoto (LCase 598) KNil) (KIf (CCs [599]) (KGoto (LCase 599) KNil) (KIf (CCs [600]) (KGoto (LCase 600) KNil) (KIf (CCs [601]) (KGoto (LCase 601) KNil) (KIf (CCs [602]) (KGoto (LCase 602) KNil) (KIf (CCs [614]) (KGoto (LCase 614) KNil) KNil KNil) KNil) KNil) KNil) KNil) KNil) KNil) KNil) KNil) KNil) KNil) KNil) KNil) KNil) KNil) KNil) KNil) KNil) KNil) KNil) KNil) KNil) KNil) KNil) KNil) KNil) KNil) KNil) KNil) KNil) KNil) KNil) KNil) KNil) KNil) KNil) KNil) KNil) KNil) KNil) KNil) KNil) KNil) KNil) KNil) KNil) KNil) KNil) KNil) KNil) KNil) KNil) KNil) KNil) KNil) KNil) KNil) KNil) KNil) KNil) KNil) KNil) KNil) KNil) KNil) KNil) KNil) KNil) KNil) KNil) KNil) KNil) KNil) KNil) KNil) KNil) KNil) KNil) KNil) KNil) KNil) KNil) KNil) KNil) KNil) KNil) KNil) KNil) KNil) KNil) KNil) KNil) KNil) KNil) KNil) KNil) KNil) KNil) KNil) KNil) KNil) KNil) KNil) KNil) KNil) KNil) KNil) KNil) KNil) KNil) KNil) KNil) KNil) KNil) KNil) KNil) KNil) KNil) KNil) KNil) KNil) KNil) KNil) KNil) KNil) KNil) KNil) KNil) KNil) KNil) KNil) KNil) KNil) KNil) KNil) KNil) KNil) KNil) KNil) KNil) KNil) KNil) KNil) KNil) KNil) KNil) KNil) KNil) KNil) KNil) KNil) KNil) KNil) KNil) KNil) KNil) KNil) KNil) KNil) KNil) KNil) KNil) KNil) KNil) KNil) KNil) KNil) KNil) KNil) KNil) KNil) KNil) KNil) KNil) KNil) KNil) KNil) KNil) KNil) KNil) KNil) KNil) KNil) KNil) KNil) KNil) KNil) KNil) KNil) KNil) KNil) KNil) KNil) KNil) KNil) KNil) KNil) KNil) KNil) KNil) KNil) KNil) KNil) KNil) KNil) KNil) KNil) KNil) KNil) KNil) KNil) KNil) KNil) KNil) KNil) KNil) KNil) KNil) KNil) KNil) KNil) KNil) KNil) KNil) KNil) KNil) KNil) KNil) KNil) KNil) KNil) KNil) KNil) KNil) KNil) KNil) KNil) KNil) KNil) KNil) KNil) KNil) KNil) KNil) KNil) KNil) KNil) KNil) KNil) KNil) KNil) KNil) KNil) KNil) KNil) KNil) KNil) KNil) KNil) KNil) KNil) KNil) KNil) KNil) KNil) KNil) KNil) KNil) KNil) KNil) KNil) KNil) KNil) KNil) KNil) KNil) KNil) KNil) KNil) KNil) KNil) KNil) KNil) KNil) KNil) KNil) KNil) KNil) KNil) KNil) KNil) KNil) KNil) KNil) KNil) KNil) KNil) KNil) KNil) KNil) KNil) KNil) KNil) KNil) KNil) KNil) KNil) KNil) KNil) KNil) KNil) KNil) KNil) KNil) KNil) KNil) KNil) KNil) KNil) KNil) KNil) KNil) KNil) KNil) KNil) KNil) KNil) KNil) KNil) KNil) KNil) KNil) KNil) KNil) KNil) KNil) KNil) KNil) KNil) KNil) KNil) KNil) KNil) KNil) KNil) KNil) KNil) KNil) KNil) KNil) KNil) KNil) KNil) KNil) KNil) KNil) KNil) KNil) KNil) KNil) KNil) KNil) KNil) KNil) KNil) KNil) KNil) KNil) KNil) KNil) KNil) KNil) KNil) KNil) KNil) KNil) KNil) KNil) KNil) KNil) KNil) KNil) KNil) KNil) KNil) KNil) KNil) KNil) KNil) KNil) KNil) KNil) KNil) KNil) KNil) KNil) KNil) KNil) KNil) KNil) KNil) KNil) KNil) KNil) KNil) KNil) KNil) KNil) KNil) KNil) KNil) KNil) KNil) KNil) KNil) KNil) KNil) KNil) KNil) KNil) KNil) KNil) KNil) KNil) KNil) KNil) KNil) KNil) KNil) KNil) KNil) KNil) KNil) KNil) KNil) KNil) KNil) KNil) KNil) KNil) KNil) KNil) KNil) KNil) KNil) KNil) KNil) KNil) KNil) KNil) KNil) KNil) KNil) KNil) KNil) KNil) KNil) KNil) KNil) KNil) KNil) KNil) KNil) KNil) KNil) KNil) KNil) KNil) KNil) KNil) KNil) KNil) KNil) KNil) KNil) KNil) KNil) KNil) KNil) KNil) KNil) KNil) KNil) KNil) KNil) KNil) KNil) KNil) KNil) KNil) KNil) KNil) KNil) KNil) KNil) KNil) KNil) KNil) KNil) KNil) KNil) KNil) KNil) KNil) KNil) KNil) KNil) KNil) KNil) KNil) KNil) KNil) KNil) KNil) KNil) KNil) KNil) KNil) KNil) KNil) KNil) KNil) KNil) KNil) KNil) KNil) KNil) KNil) KNil) KNil) KNil) KNil) KNil) KNil) KNil) KNil) KNil) KNil) KNil) KNil) KNil) KNil) KNil) KNil) KNil) KNil) KNil) KNil) KNil) KNil) KNil) KNil) KNil) KNil) KNil) KNil) KNil) KNil) KNil) KNil) KNil) KNil) KNil) KNil) KNil) KNil) KNil) KNil) KNil) KNil) KNil) KNil) KNil) KNil) KNil) KNil) KNil) KNil) KNil) KNil) KNil) KNil) KNil) KNil) KNil) KNil) KNil) KNil) KNil) KNil) KNil) KNil) KNil) KNil) KNil) KNil) KNil) KNil) KNil) KNil) KNil) KNil) KNil) KNil) KNil) KNil) KNil) KNil) KNil) KNil) KNil) KNil) KNil) KNil) KNil) (KGoto LStOut KNil))));
  (* machine.go:1365 stCase1 *) ((LCase 1), (KIf (CByte OEq 60) (KGoto (LSt 2) KNil) KNil (KGoto (LTr 0) KNil)));
  (* machine.go:1370 tr0 *) ((LTr 0), (KAct (AErr EPri) (KDec (KBlk (KGoto (LSt 614) KNil) (KGoto (LSt 0) KNil)))));
  (* machine.go:1380 tr2 *) ((LTr 2), (KAct (AErr EPrival) (KDec (KBlk (KGoto (LSt 614) KNil) (KAct (AErr EPri) (KDec (KBlk (KGoto (LSt 614) KNil) (KAct (AErr EParse) (KDec (KBlk (KGoto (LSt 614) KNil) (KGoto (LSt 0) KNil)))))))))));
  (* machine.go:1404 tr7 *) ((LTr 7), (KAct (AErr EVersion) (KDec (KBlk (KGoto (LSt 614) KNil) (KAct (AErr EParse) (KDec (KBlk (KGoto (LSt 614) KNil) (KGoto (LSt 0) KNil))))))));
  (* machine.go:1421 tr9 *) ((LTr 9), (KAct (AErr EParse) (KDec (KBlk (KGoto (LSt 614) KNil) (KGoto (LSt 0) KNil)))));
  (* machine.go:1431 tr12 *) ((LTr 12), (KAct (AErr ETimestamp) (KDec (KBlk (KGoto (LSt 614) KNil) (KAct (AErr EParse) (KDec (KBlk (KGoto (LSt 614) KNil) (KGoto (LSt 0) KNil))))))));
  (* machine.go:1448 tr16 *) ((LTr 16), (KAct (AErr EHostname) (KDec (KBlk (KGoto (LSt 614) KNil) (KAct (AErr EParse) (KDec (KBlk (KGoto (LSt 614) KNil) (KGoto (LSt 0) KNil))))))));
  (* machine.go:1465 tr20 *) ((LTr 20), (KAct (AErr EAppname) (KDec (KBlk (KGoto (LSt 614) KNil) (KAct (AErr EParse) (KDec (KBlk (KGoto (LSt 614) KNil) (KGoto (LSt 0) KNil))))))));
  (* machine.go:1482 tr24 *) ((LTr 24), (KAct (AErr EProcID) (KDec (KBlk (KGoto (LSt 614) KNil) (KAct (AErr EParse) (KDec (KBlk (KGoto (LSt 614) KNil) (KGoto (LSt 0) KNil))))))));
  (* machine.go:1499 tr28 *) ((LTr 28), (KAct (AErr EMsgID) (KDec (KBlk (KGoto (LSt 614) KNil) (KAct (AErr EParse) (KDec (KBlk (KGoto (LSt 614) KNil) (KGoto (LSt 0) KNil))))))));
  (* machine.go:1516 tr30 *) ((LTr 30), (KAct (AErr EMsgID) (KDec (KBlk (KGoto (LSt 614) KNil) (KGoto (LSt 0) KNil)))));
  (* machine.go:1526 tr33 *) ((LTr 33), (KAct (AErr EStructuredData) (KDec (KBlk (KGoto (LSt 614) KNil) (KGoto (LSt 0) KNil)))));
  (* machine.go:1536 tr36 *) ((LTr 36), (KAct ASdDelElem (KIf (CExt CSdEmpty) (KAct (AHasElements false) KNil) KNil (KAct (AErr ESdID) (KDec (KBlk (KGoto (LSt 614) KNil) (KAct (AErr EStructuredData) (KDec (KBlk (KGoto (LSt 614) KNil) (KGoto (LSt 0) KNil))))))))));
  (* machine.go:1557 tr38 *) ((LTr 38), (KAct AIdLookup (KIf (CExt CIdExists) (KAct (AErr ESdIDDuplicated) (KDec (KBlk (KGoto (LSt 614) KNil) KNil))) (KAct AIdLocal (KAct ASdNewElem (KAct (AHasElements true) (KAct ACurElem KNil)))) (KAct ASdDelElem (KIf (CExt CSdEmpty) (KAct (AHasElements false) KNil) KNil (KAct (AErr ESdID) (KDec (KBlk (KGoto (LSt 614) KNil) (KAct (AErr EStructuredData) (KDec (KBlk (KGoto (LSt 614) KNil) (KGoto (LSt 0) KNil))))))))))));
  (* machine.go:1593 tr42 *) ((LTr 42), (KIf (CExt CSdNonEmpty) (KAct ASdDelParam KNil) KNil (KAct (AErr ESdParam) (KDec (KBlk (KGoto (LSt 614) KNil) (KAct (AErr EStructuredData) (KDec (KBlk (KGoto (LSt 614) KNil) (KGoto (LSt 0) KNil)))))))));
  (* machine.go:1613 tr80 *) ((LTr 80), (KAct (AErr EEscape) (KDec (KBlk (KGoto (LSt 614) KNil) (KIf (CExt CSdNonEmpty) (KAct ASdDelParam KNil) KNil (KAct (AErr ESdParam) (KDec (KBlk (KGoto (LSt 614) KNil) (KAct (AErr EStructuredData) (KDec (KBlk (KGoto (LSt 614) KNil) (KGoto (LSt 0) KNil))))))))))));
  (* machine.go:1640 tr615 *) ((LTr 615), (KAct ATimeParse (KIf (CExt CTimeErr) (KAct AErrTime (KDec (KBlk (KGoto (LSt 614) KNil) KNil))) (KAct ATimestamp (KAct ATimestampSet KNil)) (KAct (AErr EParse) (KDec (KBlk (KGoto (LSt 614) KNil) (KGoto (LSt 0) KNil)))))));
  (* machine.go:1662 tr627 *) ((LTr 627), (KIf (CExt CMsgat) (KAct AMessagePartial KNil) KNil (KIf (CExt CCompliant) (KAct (AErr EMsgNotCompliant) KNil) (KAct (AErr EMsg) KNil) (KDec (KBlk (KGoto (LSt 614) KNil) (KGoto (LSt 0) KNil))))));
  (* machine.go:1683 tr633 *) ((LTr 633), (KAct (AErr EStructuredData) (KDec (KBlk (KGoto (LSt 614) KNil) (KAct (AErr EParse) (KDec (KBlk (KGoto (LSt 614) KNil) (KGoto (LSt 0) KNil))))))));
  (* machine.go:1700 stCase0 *) ((LCase 0), KNil);
  (* machine.go:1701 st0 *) ((LSt 0), (KCs 0 (KGoto LOut KNil)));
  (* machine.go:1704 st2 *) ((LSt 2), (KInc (KIf CPe (KGoto (LEofN 2) KNil) KNil KNil)));
  (* machine.go:1708 stCase2 *) ((LCase 2), (KBlk (KIf (CByte OEq 48) (KGoto (LTr 3) KNil) (KIf (CByte OEq 49) (KGoto (LTr 4) KNil) KNil KNil) KNil) (KIf (CAnd (CByte OGe 50) (CByte OLe 57)) (KGoto (LTr 5) KNil) KNil (KGoto (LTr 2) KNil))));
  (* machine.go:1719 tr3 *) ((LTr 3), (KAct APb (KGoto (LSt 3) KNil)));
  (* machine.go:1724 st3 *) ((LSt 3), (KInc (KIf CPe (KGoto (LEofN 3) KNil) KNil KNil)));
  (* machine.go:1728 stCase3 *) ((LCase 3), (KAct APriority (KAct APrioritySet (KIf (CByte OEq 62) (KGoto (LSt 4) KNil) KNil (KGoto (LTr 2) KNil)))));
  (* machine.go:1737 st4 *) ((LSt 4), (KInc (KIf CPe (KGoto (LEofN 4) KNil) KNil KNil)));
  (* machine.go:1741 stCase4 *) ((LCase 4), (KIf (CAnd (CByte OGe 49) (CByte OLe 57)) (KGoto (LTr 8) KNil) KNil (KGoto (LTr 7) KNil)));
  (* machine.go:1746 tr8 *) ((LTr 8), (KAct APb (KGoto (LSt 5) KNil)));
  (* machine.go:1751 st5 *) ((LSt 5), (KInc (KIf CPe (KGoto (LEofN 5) KNil) KNil KNil)));
  (* machine.go:1755 stCase5 *) ((LCase 5), (KAct AVersion (KIf (CByte OEq 32) (KGoto (LSt 6) KNil) KNil (KIf (CAnd (CByte OGe 48) (CByte OLe 57)) (KGoto (LSt 591) KNil) KNil (KGoto (LTr 9) KNil)))));
  (* machine.go:1766 st6 *) ((LSt 6), (KInc (KIf CPe (KGoto (LEofN 6) KNil) KNil KNil)));
  (* machine.go:1770 stCase6 *) ((LCase 6), (KIf (CByte OEq 45) (KGoto (LSt 7) KNil) KNil (KIf (CAnd (CByte OGe 48) (CByte OLe 57)) (KGoto (LTr 14) KNil) KNil (KGoto (LTr 12) KNil))));
  (* machine.go:1778 st7 *) ((LSt 7), (KInc (KIf CPe (KGoto (LEofN 7) KNil) KNil KNil)));
  (* machine.go:1782 stCase7 *) ((LCase 7), (KIf (CByte OEq 32) (KGoto (LSt 8) KNil) KNil (KGoto (LTr 9) KNil)));
  (* machine.go:1787 tr616 *) ((LTr 616), (KAct ATimeParse (KIf (CExt CTimeErr) (KAct AErrTime (KDec (KBlk (KGoto (LSt 614) KNil) KNil))) (KAct ATimestamp (KAct ATimestampSet KNil)) (KGoto (LSt 8) KNil))));
  (* machine.go:1802 st8 *) ((LSt 8), (KInc (KIf CPe (KGoto (LEofN 8) KNil) KNil KNil)));
  (* machine.go:1806 stCase8 *) ((LCase 8), (KIf (CAnd (CByte OGe 33) (CByte OLe 126)) (KGoto (LTr 17) KNil) KNil (KGoto (LTr 16) KNil)));
  (* machine.go:1811 tr17 *) ((LTr 17), (KAct APb (KGoto (LSt 9) KNil)));
  (* machine.go:1816 st9 *) ((LSt 9), (KInc (KIf CPe (KGoto (LEofN 9) KNil) KNil KNil)));
  (* machine.go:1820 stCase9 *) ((LCase 9), (KIf (CByte OEq 32) (KGoto (LTr 18) KNil) KNil (KIf (CAnd (CByte OGe 33) (CByte OLe 126)) (KGoto (LSt 300) KNil) KNil (KGoto (LTr 16) KNil))));
  (* machine.go:1828 tr18 *) ((LTr 18), (KAct AHostname (KGoto (LSt 10) KNil)));
  (* machine.go:1833 st10 *) ((LSt 10), (KInc (KIf CPe (KGoto (LEofN 10) KNil) KNil KNil)));
  (* machine.go:1837 stCase10 *) ((LCase 10), (KIf (CAnd (CByte OGe 33) (CByte OLe 126)) (KGoto (LTr 21) KNil) KNil (KGoto (LTr 20) KNil)));
  (* machine.go:1842 tr21 *) ((LTr 21), (KAct APb (KGoto (LSt 11) KNil)));
  (* machine.go:1847 st11 *) ((LSt 11), (KInc (KIf CPe (KGoto (LEofN 11) KNil) KNil KNil)));
  (* machine.go:1851 stCase11 *) ((LCase 11), (KIf (CByte OEq 32) (KGoto (LTr 22) KNil) KNil (KIf (CAnd (CByte OGe 33) (CByte OLe 126)) (KGoto (LSt 253) KNil) KNil (KGoto (LTr 20) KNil))));
  (* machine.go:1859 tr22 *) ((LTr 22), (KAct AAppname (KGoto (LSt 12) KNil)));
  (* machine.go:1864 st12 *) ((LSt 12), (KInc (KIf CPe (KGoto (LEofN 12) KNil) KNil KNil)));
  (* machine.go:1868 stCase12 *) ((LCase 12), (KIf (CAnd (CByte OGe 33) (CByte OLe 126)) (KGoto (LTr 25) KNil) KNil (KGoto (LTr 24) KNil)));
  (* machine.go:1873 tr25 *) ((LTr 25), (KAct APb (KGoto (LSt 13) KNil)));
  (* machine.go:1878 st13 *) ((LSt 13), (KInc (KIf CPe (KGoto (LEofN 13) KNil) KNil KNil)));
  (* machine.go:1882 stCase13 *) ((LCase 13), (KIf (CByte OEq 32) (KGoto (LTr 26) KNil) KNil (KIf (CAnd (CByte OGe 33) (CByte OLe 126)) (KGoto (LSt 126) KNil) KNil (KGoto (LTr 24) KNil))));
  (* machine.go:1890 tr26 *) ((LTr 26), (KAct AProcID (KGoto (LSt 14) KNil)));
  (* machine.go:1895 st14 *) ((LSt 14), (KInc (KIf CPe (KGoto (LEofN 14) KNil) KNil KNil)));
  (* machine.go:1899 stCase14 *) ((LCase 14), (KIf (CAnd (CByte OGe 33) (CByte OLe 126)) (KGoto (LTr 29) KNil) KNil (KGoto (LTr 28) KNil)));
  (* machine.go:1904 tr29 *) ((LTr 29), (KAct APb (KGoto (LSt 15) KNil)));
  (* machine.go:1909 st15 *) ((LSt 15), (KInc (KIf CPe (KGoto (LEofN 15) KNil) KNil KNil)));
  (* machine.go:1913 stCase15 *) ((LCase 15), (KIf (CByte OEq 32) (KGoto (LTr 31) KNil) KNil (KIf (CAnd (CByte OGe 33) (CByte OLe 126)) (KGoto (LSt 95) KNil) KNil (KGoto (LTr 30) KNil))))
].

(* /repo/rfc5424/machine.go *)
Definition prog5424_1 : list (label * code act cnd) := [
  (* machine.go:1921 tr31 *) ((LTr 31), (KAct AMsgID (KGoto (LSt 16) KNil)));
  (* machine.go:1926 st16 *) ((LSt 16), (KInc (KIf CPe (KGoto (LEofN 16) KNil) KNil KNil)));
  (* machine.go:1930 stCase16 *) ((LCase 16), (KBlk (KIf (CByte OEq 45) (KGoto (LSt 603) KNil) (KIf (CByte OEq 91) (KGoto (LTr 35) KNil) KNil KNil) KNil) (KGoto (LTr 33) KNil)));
  (* machine.go:1938 st603 *) ((LSt 603), (KInc (KIf CPe (KGoto (LEofN 603) KNil) KNil KNil)));
  (* machine.go:1942 stCase603 *) ((LCase 603), (KIf (CByte OEq 32) (KGoto (LSt 604) KNil) KNil (KGoto (LTr 9) KNil)));
  (* machine.go:1947 st604 *) ((LSt 604), (KInc (KIf CPe (KGoto (LEofN 604) KNil) KNil KNil)));
  (* machine.go:1951 stCase604 *) ((LCase 604), (KGoto (LTr 632) KNil));
  (* machine.go:1953 tr632 *) ((LTr 632), (KDec (KIf (CExt CCompliant) (KBlk (KGoto (LSt 609) KNil) KNil) KNil (KBlk (KGoto (LSt 607) KNil) (KGoto (LSt 605) KNil)))));
  (* machine.go:1967 st605 *) ((LSt 605), (KInc (KIf CPe (KGoto (LEofN 605) KNil) KNil KNil)));
  (* machine.go:1971 stCase605 *) ((LCase 605), (KGoto (LTr 9) KNil));
  (* machine.go:1973 tr35 *) ((LTr 35), (KAct ASdInit (KGoto (LSt 17) KNil)));
  (* machine.go:1978 st17 *) ((LSt 17), (KInc (KIf CPe (KGoto (LEofN 17) KNil) KNil KNil)));
  (* machine.go:1982 stCase17 *) ((LCase 17), (KIf (CByte OEq 33) (KGoto (LTr 37) KNil) KNil (KBlk (KIf (CByte OLt 62) (KIf (CAnd (CByte OGe 35) (CByte OLe 60)) (KGoto (LTr 37) KNil) KNil KNil) (KIf (CByte OGt 92) (KIf (CAnd (CByte OGe 94) (CByte OLe 126)) (KGoto (LTr 37) KNil) KNil KNil) (KGoto (LTr 37) KNil) KNil) KNil) (KGoto (LTr 36) KNil))));
  (* machine.go:1999 tr37 *) ((LTr 37), (KAct APb (KGoto (LSt 18) KNil)));
  (* machine.go:2004 st18 *) ((LSt 18), (KInc (KIf CPe (KGoto (LEofN 18) KNil) KNil KNil)));
  (* machine.go:2008 stCase18 *) ((LCase 18), (KBlk (KIf (CByte OEq 32) (KGoto (LTr 39) KNil) (KIf (CByte OEq 33) (KGoto (LSt 64) KNil) (KIf (CByte OEq 93) (KGoto (LTr 41) KNil) KNil KNil) KNil) KNil) (KBlk (KIf (CByte OGt 60) (KIf (CAnd (CByte OGe 62) (CByte OLe 126)) (KGoto (LSt 64) KNil) KNil KNil) (KIf (CByte OGe 35) (KGoto (LSt 64) KNil) KNil KNil) KNil) (KGoto (LTr 38) KNil))));
  (* machine.go:2026 tr39 *) ((LTr 39), (KAct AIdLookup (KIf (CExt CIdExists) (KAct (AErr ESdIDDuplicated) (KDec (KBlk (KGoto (LSt 614) KNil) KNil))) (KAct AIdLocal (KAct ASdNewElem (KAct (AHasElements true) (KAct ACurElem KNil)))) (KGoto (LSt 19) KNil))));
  (* machine.go:2044 st19 *) ((LSt 19), (KInc (KIf CPe (KGoto (LEofN 19) KNil) KNil KNil)));
  (* machine.go:2048 stCase19 *) ((LCase 19), (KIf (CByte OEq 33) (KGoto (LTr 43) KNil) KNil (KBlk (KIf (CByte OLt 62) (KIf (CAnd (CByte OGe 35) (CByte OLe 60)) (KGoto (LTr 43) KNil) KNil KNil) (KIf (CByte OGt 92) (KIf (CAnd (CByte OGe 94) (CByte OLe 126)) (KGoto (LTr 43) KNil) KNil KNil) (KGoto (LTr 43) KNil) KNil) KNil) (KGoto (LTr 42) KNil))));
  (* machine.go:2065 tr43 *) ((LTr 43), (KAct ABackReset (KAct APb (KGoto (LSt 20) KNil))));
  (* machine.go:2072 st20 *) ((LSt 20), (KInc (KIf CPe (KGoto (LEofN 20) KNil) KNil KNil)));
  (* machine.go:2076 stCase20 *) ((LCase 20), (KBlk (KIf (CByte OEq 33) (KGoto (LSt 21) KNil) (KIf (CByte OEq 61) (KGoto (LTr 45) KNil) KNil KNil) KNil) (KBlk (KIf (CByte OGt 92) (KIf (CAnd (CByte OGe 94) (CByte OLe 126)) (KGoto (LSt 21) KNil) KNil KNil) (KIf (CByte OGe 35) (KGoto (LSt 21) KNil) KNil KNil) KNil) (KGoto (LTr 42) KNil))));
  (* machine.go:2092 st21 *) ((LSt 21), (KInc (KIf CPe (KGoto (LEofN 21) KNil) KNil KNil)));
  (* machine.go:2096 stCase21 *) ((LCase 21), (KBlk (KIf (CByte OEq 33) (KGoto (LSt 22) KNil) (KIf (CByte OEq 61) (KGoto (LTr 45) KNil) KNil KNil) KNil) (KBlk (KIf (CByte OGt 92) (KIf (CAnd (CByte OGe 94) (CByte OLe 126)) (KGoto (LSt 22) KNil) KNil KNil) (KIf (CByte OGe 35) (KGoto (LSt 22) KNil) KNil KNil) KNil) (KGoto (LTr 42) KNil))));
  (* machine.go:2112 st22 *) ((LSt 22), (KInc (KIf CPe (KGoto (LEofN 22) KNil) KNil KNil)));
  (* machine.go:2116 stCase22 *) ((LCase 22), (KBlk (KIf (CByte OEq 33) (KGoto (LSt 23) KNil) (KIf (CByte OEq 61) (KGoto (LTr 45) KNil) KNil KNil) KNil) (KBlk (KIf (CByte OGt 92) (KIf (CAnd (CByte OGe 94) (CByte OLe 126)) (KGoto (LSt 23) KNil) KNil KNil) (KIf (CByte OGe 35) (KGoto (LSt 23) KNil) KNil KNil) KNil) (KGoto (LTr 42) KNil))));
  (* machine.go:2132 st23 *) ((LSt 23), (KInc (KIf CPe (KGoto (LEofN 23) KNil) KNil KNil)));
  (* machine.go:2136 stCase23 *) ((LCase 23), (KBlk (KIf (CByte OEq 33) (KGoto (LSt 24) KNil) (KIf (CByte OEq 61) (KGoto (LTr 45) KNil) KNil KNil) KNil) (KBlk (KIf (CByte OGt 92) (KIf (CAnd (CByte OGe 94) (CByte OLe 126)) (KGoto (LSt 24) KNil) KNil KNil) (KIf (CByte OGe 35) (KGoto (LSt 24) KNil) KNil KNil) KNil) (KGoto (LTr 42) KNil))));
  (* machine.go:2152 st24 *) ((LSt 24), (KInc (KIf CPe (KGoto (LEofN 24) KNil) KNil KNil)));
  (* machine.go:2156 stCase24 *) ((LCase 24), (KBlk (KIf (CByte OEq 33) (KGoto (LSt 25) KNil) (KIf (CByte OEq 61) (KGoto (LTr 45) KNil) KNil KNil) KNil) (KBlk (KIf (CByte OGt 92) (KIf (CAnd (CByte OGe 94) (CByte OLe 126)) (KGoto (LSt 25) KNil) KNil KNil) (KIf (CByte OGe 35) (KGoto (LSt 25) KNil) KNil KNil) KNil) (KGoto (LTr 42) KNil))));
  (* machine.go:2172 st25 *) ((LSt 25), (KInc (KIf CPe (KGoto (LEofN 25) KNil) KNil KNil)));
  (* machine.go:2176 stCase25 *) ((LCase 25), (KBlk (KIf (CByte OEq 33) (KGoto (LSt 26) KNil) (KIf (CByte OEq 61) (KGoto (LTr 45) KNil) KNil KNil) KNil) (KBlk (KIf (CByte OGt 92) (KIf (CAnd (CByte OGe 94) (CByte OLe 126)) (KGoto (LSt 26) KNil) KNil KNil) (KIf (CByte OGe 35) (KGoto (LSt 26) KNil) KNil KNil) KNil) (KGoto (LTr 42) KNil))));
  (* machine.go:2192 st26 *) ((LSt 26), (KInc (KIf CPe (KGoto (LEofN 26) KNil) KNil KNil)));
  (* machine.go:2196 stCase26 *) ((LCase 26), (KBlk (KIf (CByte OEq 33) (KGoto (LSt 27) KNil) (KIf (CByte OEq 61) (KGoto (LTr 45) KNil) KNil KNil) KNil) (KBlk (KIf (CByte OGt 92) (KIf (CAnd (CByte OGe 94) (CByte OLe 126)) (KGoto (LSt 27) KNil) KNil KNil) (KIf (CByte OGe 35) (KGoto (LSt 27) KNil) KNil KNil) KNil) (KGoto (LTr 42) KNil))));
  (* machine.go:2212 st27 *) ((LSt 27), (KInc (KIf CPe (KGoto (LEofN 27) KNil) KNil KNil)));
  (* machine.go:2216 stCase27 *) ((LCase 27), (KBlk (KIf (CByte OEq 33) (KGoto (LSt 28) KNil) (KIf (CByte OEq 61) (KGoto (LTr 45) KNil) KNil KNil) KNil) (KBlk (KIf (CByte OGt 92) (KIf (CAnd (CByte OGe 94) (CByte OLe 126)) (KGoto (LSt 28) KNil) KNil KNil) (KIf (CByte OGe 35) (KGoto (LSt 28) KNil) KNil KNil) KNil) (KGoto (LTr 42) KNil))));
  (* machine.go:2232 st28 *) ((LSt 28), (KInc (KIf CPe (KGoto (LEofN 28) KNil) KNil KNil)));
  (* machine.go:2236 stCase28 *) ((LCase 28), (KBlk (KIf (CByte OEq 33) (KGoto (LSt 29) KNil) (KIf (CByte OEq 61) (KGoto (LTr 45) KNil) KNil KNil) KNil) (KBlk (KIf (CByte OGt 92) (KIf (CAnd (CByte OGe 94) (CByte OLe 126)) (KGoto (LSt 29) KNil) KNil KNil) (KIf (CByte OGe 35) (KGoto (LSt 29) KNil) KNil KNil) KNil) (KGoto (LTr 42) KNil))));
  (* machine.go:2252 st29 *) ((LSt 29), (KInc (KIf CPe (KGoto (LEofN 29) KNil) KNil KNil)));
  (* machine.go:2256 stCase29 *) ((LCase 29), (KBlk (KIf (CByte OEq 33) (KGoto (LSt 30) KNil) (KIf (CByte OEq 61) (KGoto (LTr 45) KNil) KNil KNil) KNil) (KBlk (KIf (CByte OGt 92) (KIf (CAnd (CByte OGe 94) (CByte OLe 126)) (KGoto (LSt 30) KNil) KNil KNil) (KIf (CByte OGe 35) (KGoto (LSt 30) KNil) KNil KNil) KNil) (KGoto (LTr 42) KNil))));
  (* machine.go:2272 st30 *) ((LSt 30), (KInc (KIf CPe (KGoto (LEofN 30) KNil) KNil KNil)));
  (* machine.go:2276 stCase30 *) ((LCase 30), (KBlk (KIf (CByte OEq 33) (KGoto (LSt 31) KNil) (KIf (CByte OEq 61) (KGoto (LTr 45) KNil) KNil KNil) KNil) (KBlk (KIf (CByte OGt 92) (KIf (CAnd (CByte OGe 94) (CByte OLe 126)) (KGoto (LSt 31) KNil) KNil KNil) (KIf (CByte OGe 35) (KGoto (LSt 31) KNil) KNil KNil) KNil) (KGoto (LTr 42) KNil))));
  (* machine.go:2292 st31 *) ((LSt 31), (KInc (KIf CPe (KGoto (LEofN 31) KNil) KNil KNil)));
  (* machine.go:2296 stCase31 *) ((LCase 31), (KBlk (KIf (CByte OEq 33) (KGoto (LSt 32) KNil) (KIf (CByte OEq 61) (KGoto (LTr 45) KNil) KNil KNil) KNil) (KBlk (KIf (CByte OGt 92) (KIf (CAnd (CByte OGe 94) (CByte OLe 126)) (KGoto (LSt 32) KNil) KNil KNil) (KIf (CByte OGe 35) (KGoto (LSt 32) KNil) KNil KNil) KNil) (KGoto (LTr 42) KNil))));
  (* machine.go:2312 st32 *) ((LSt 32), (KInc (KIf CPe (KGoto (LEofN 32) KNil) KNil KNil)));
  (* machine.go:2316 stCase32 *) ((LCase 32), (KBlk (KIf (CByte OEq 33) (KGoto (LSt 33) KNil) (KIf (CByte OEq 61) (KGoto (LTr 45) KNil) KNil KNil) KNil) (KBlk (KIf (CByte OGt 92) (KIf (CAnd (CByte OGe 94) (CByte OLe 126)) (KGoto (LSt 33) KNil) KNil KNil) (KIf (CByte OGe 35) (KGoto (LSt 33) KNil) KNil KNil) KNil) (KGoto (LTr 42) KNil))));
  (* machine.go:2332 st33 *) ((LSt 33), (KInc (KIf CPe (KGoto (LEofN 33) KNil) KNil KNil)));
  (* machine.go:2336 stCase33 *) ((LCase 33), (KBlk (KIf (CByte OEq 33) (KGoto (LSt 34) KNil) (KIf (CByte OEq 61) (KGoto (LTr 45) KNil) KNil KNil) KNil) (KBlk (KIf (CByte OGt 92) (KIf (CAnd (CByte OGe 94) (CByte OLe 126)) (KGoto (LSt 34) KNil) KNil KNil) (KIf (CByte OGe 35) (KGoto (LSt 34) KNil) KNil KNil) KNil) (KGoto (LTr 42) KNil))));
  (* machine.go:2352 st34 *) ((LSt 34), (KInc (KIf CPe (KGoto (LEofN 34) KNil) KNil KNil)));
  (* machine.go:2356 stCase34 *) ((LCase 34), (KBlk (KIf (CByte OEq 33) (KGoto (LSt 35) KNil) (KIf (CByte OEq 61) (KGoto (LTr 45) KNil) KNil KNil) KNil) (KBlk (KIf (CByte OGt 92) (KIf (CAnd (CByte OGe 94) (CByte OLe 126)) (KGoto (LSt 35) KNil) KNil KNil) (KIf (CByte OGe 35) (KGoto (LSt 35) KNil) KNil KNil) KNil) (KGoto (LTr 42) KNil))));
  (* machine.go:2372 st35 *) ((LSt 35), (KInc (KIf CPe (KGoto (LEofN 35) KNil) KNil KNil)));
  (* machine.go:2376 stCase35 *) ((LCase 35), (KBlk (KIf (CByte OEq 33) (KGoto (LSt 36) KNil) (KIf (CByte OEq 61) (KGoto (LTr 45) KNil) KNil KNil) KNil) (KBlk (KIf (CByte OGt 92) (KIf (CAnd (CByte OGe 94) (CByte OLe 126)) (KGoto (LSt 36) KNil) KNil KNil) (KIf (CByte OGe 35) (KGoto (LSt 36) KNil) KNil KNil) KNil) (KGoto (LTr 42) KNil))));
  (* machine.go:2392 st36 *) ((LSt 36), (KInc (KIf CPe (KGoto (LEofN 36) KNil) KNil KNil)));
  (* machine.go:2396 stCase36 *) ((LCase 36), (KBlk (KIf (CByte OEq 33) (KGoto (LSt 37) KNil) (KIf (CByte OEq 61) (KGoto (LTr 45) KNil) KNil KNil) KNil) (KBlk (KIf (CByte OGt 92) (KIf (CAnd (CByte OGe 94) (CByte OLe 126)) (KGoto (LSt 37) KNil) KNil KNil) (KIf (CByte OGe 35) (KGoto (LSt 37) KNil) KNil KNil) KNil) (KGoto (LTr 42) KNil))));
  (* machine.go:2412 st37 *) ((LSt 37), (KInc (KIf CPe (KGoto (LEofN 37) KNil) KNil KNil)));
  (* machine.go:2416 stCase37 *) ((LCase 37), (KBlk (KIf (CByte OEq 33) (KGoto (LSt 38) KNil) (KIf (CByte OEq 61) (KGoto (LTr 45) KNil) KNil KNil) KNil) (KBlk (KIf (CByte OGt 92) (KIf (CAnd (CByte OGe 94) (CByte OLe 126)) (KGoto (LSt 38) KNil) KNil KNil) (KIf (CByte OGe 35) (KGoto (LSt 38) KNil) KNil KNil) KNil) (KGoto (LTr 42) KNil))));
  (* machine.go:2432 st38 *) ((LSt 38), (KInc (KIf CPe (KGoto (LEofN 38) KNil) KNil KNil)));
  (* machine.go:2436 stCase38 *) ((LCase 38), (KBlk (KIf (CByte OEq 33) (KGoto (LSt 39) KNil) (KIf (CByte OEq 61) (KGoto (LTr 45) KNil) KNil KNil) KNil) (KBlk (KIf (CByte OGt 92) (KIf (CAnd (CByte OGe 94) (CByte OLe 126)) (KGoto (LSt 39) KNil) KNil KNil) (KIf (CByte OGe 35) (KGoto (LSt 39) KNil) KNil KNil) KNil) (KGoto (LTr 42) KNil))));
  (* machine.go:2452 st39 *) ((LSt 39), (KInc (KIf CPe (KGoto (LEofN 39) KNil) KNil KNil)));
  (* machine.go:2456 stCase39 *) ((LCase 39), (KBlk (KIf (CByte OEq 33) (KGoto (LSt 40) KNil) (KIf (CByte OEq 61) (KGoto (LTr 45) KNil) KNil KNil) KNil) (KBlk (KIf (CByte OGt 92) (KIf (CAnd (CByte OGe 94) (CByte OLe 126)) (KGoto (LSt 40) KNil) KNil KNil) (KIf (CByte OGe 35) (KGoto (LSt 40) KNil) KNil KNil) KNil) (KGoto (LTr 42) KNil))))
].

(* /repo/rfc5424/machine.go *)
Definition prog5424_2 : list (label * code act cnd) := [
  (* machine.go:2472 st40 *) ((LSt 40), (KInc (KIf CPe (KGoto (LEofN 40) KNil) KNil KNil)));
  (* machine.go:2476 stCase40 *) ((LCase 40), (KBlk (KIf (CByte OEq 33) (KGoto (LSt 41) KNil) (KIf (CByte OEq 61) (KGoto (LTr 45) KNil) KNil KNil) KNil) (KBlk (KIf (CByte OGt 92) (KIf (CAnd (CByte OGe 94) (CByte OLe 126)) (KGoto (LSt 41) KNil) KNil KNil) (KIf (CByte OGe 35) (KGoto (LSt 41) KNil) KNil KNil) KNil) (KGoto (LTr 42) KNil))));
  (* machine.go:2492 st41 *) ((LSt 41), (KInc (KIf CPe (KGoto (LEofN 41) KNil) KNil KNil)));
  (* machine.go:2496 stCase41 *) ((LCase 41), (KBlk (KIf (CByte OEq 33) (KGoto (LSt 42) KNil) (KIf (CByte OEq 61) (KGoto (LTr 45) KNil) KNil KNil) KNil) (KBlk (KIf (CByte OGt 92) (KIf (CAnd (CByte OGe 94) (CByte OLe 126)) (KGoto (LSt 42) KNil) KNil KNil) (KIf (CByte OGe 35) (KGoto (LSt 42) KNil) KNil KNil) KNil) (KGoto (LTr 42) KNil))));
  (* machine.go:2512 st42 *) ((LSt 42), (KInc (KIf CPe (KGoto (LEofN 42) KNil) KNil KNil)));
  (* machine.go:2516 stCase42 *) ((LCase 42), (KBlk (KIf (CByte OEq 33) (KGoto (LSt 43) KNil) (KIf (CByte OEq 61) (KGoto (LTr 45) KNil) KNil KNil) KNil) (KBlk (KIf (CByte OGt 92) (KIf (CAnd (CByte OGe 94) (CByte OLe 126)) (KGoto (LSt 43) KNil) KNil KNil) (KIf (CByte OGe 35) (KGoto (LSt 43) KNil) KNil KNil) KNil) (KGoto (LTr 42) KNil))));
  (* machine.go:2532 st43 *) ((LSt 43), (KInc (KIf CPe (KGoto (LEofN 43) KNil) KNil KNil)));
  (* machine.go:2536 stCase43 *) ((LCase 43), (KBlk (KIf (CByte OEq 33) (KGoto (LSt 44) KNil) (KIf (CByte OEq 61) (KGoto (LTr 45) KNil) KNil KNil) KNil) (KBlk (KIf (CByte OGt 92) (KIf (CAnd (CByte OGe 94) (CByte OLe 126)) (KGoto (LSt 44) KNil) KNil KNil) (KIf (CByte OGe 35) (KGoto (LSt 44) KNil) KNil KNil) KNil) (KGoto (LTr 42) KNil))));
  (* machine.go:2552 st44 *) ((LSt 44), (KInc (KIf CPe (KGoto (LEofN 44) KNil) KNil KNil)));
  (* machine.go:2556 stCase44 *) ((LCase 44), (KBlk (KIf (CByte OEq 33) (KGoto (LSt 45) KNil) (KIf (CByte OEq 61) (KGoto (LTr 45) KNil) KNil KNil) KNil) (KBlk (KIf (CByte OGt 92) (KIf (CAnd (CByte OGe 94) (CByte OLe 126)) (KGoto (LSt 45) KNil) KNil KNil) (KIf (CByte OGe 35) (KGoto (LSt 45) KNil) KNil KNil) KNil) (KGoto (LTr 42) KNil))));
  (* machine.go:2572 st45 *) ((LSt 45), (KInc (KIf CPe (KGoto (LEofN 45) KNil) KNil KNil)));
  (* machine.go:2576 stCase45 *) ((LCase 45), (KBlk (KIf (CByte OEq 33) (KGoto (LSt 46) KNil) (KIf (CByte OEq 61) (KGoto (LTr 45) KNil) KNil KNil) KNil) (KBlk (KIf (CByte OGt 92) (KIf (CAnd (CByte OGe 94) (CByte OLe 126)) (KGoto (LSt 46) KNil) KNil KNil) (KIf (CByte OGe 35) (KGoto (LSt 46) KNil) KNil KNil) KNil) (KGoto (LTr 42) KNil))));
  (* machine.go:2592 st46 *) ((LSt 46), (KInc (KIf CPe (KGoto (LEofN 46) KNil) KNil KNil)));
  (* machine.go:2596 stCase46 *) ((LCase 46), (KBlk (KIf (CByte OEq 33) (KGoto (LSt 47) KNil) (KIf (CByte OEq 61) (KGoto (LTr 45) KNil) KNil KNil) KNil) (KBlk (KIf (CByte OGt 92) (KIf (CAnd (CByte OGe 94) (CByte OLe 126)) (KGoto (LSt 47) KNil) KNil KNil) (KIf (CByte OGe 35) (KGoto (LSt 47) KNil) KNil KNil) KNil) (KGoto (LTr 42) KNil))));
  (* machine.go:2612 st47 *) ((LSt 47), (KInc (KIf CPe (KGoto (LEofN 47) KNil) KNil KNil)));
  (* machine.go:2616 stCase47 *) ((LCase 47), (KBlk (KIf (CByte OEq 33) (KGoto (LSt 48) KNil) (KIf (CByte OEq 61) (KGoto (LTr 45) KNil) KNil KNil) KNil) (KBlk (KIf (CByte OGt 92) (KIf (CAnd (CByte OGe 94) (CByte OLe 126)) (KGoto (LSt 48) KNil) KNil KNil) (KIf (CByte OGe 35) (KGoto (LSt 48) KNil) KNil KNil) KNil) (KGoto (LTr 42) KNil))));
  (* machine.go:2632 st48 *) ((LSt 48), (KInc (KIf CPe (KGoto (LEofN 48) KNil) KNil KNil)));
  (* machine.go:2636 stCase48 *) ((LCase 48), (KBlk (KIf (CByte OEq 33) (KGoto (LSt 49) KNil) (KIf (CByte OEq 61) (KGoto (LTr 45) KNil) KNil KNil) KNil) (KBlk (KIf (CByte OGt 92) (KIf (CAnd (CByte OGe 94) (CByte OLe 126)) (KGoto (LSt 49) KNil) KNil KNil) (KIf (CByte OGe 35) (KGoto (LSt 49) KNil) KNil KNil) KNil) (KGoto (LTr 42) KNil))));
  (* machine.go:2652 st49 *) ((LSt 49), (KInc (KIf CPe (KGoto (LEofN 49) KNil) KNil KNil)));
  (* machine.go:2656 stCase49 *) ((LCase 49), (KBlk (KIf (CByte OEq 33) (KGoto (LSt 50) KNil) (KIf (CByte OEq 61) (KGoto (LTr 45) KNil) KNil KNil) KNil) (KBlk (KIf (CByte OGt 92) (KIf (CAnd (CByte OGe 94) (CByte OLe 126)) (KGoto (LSt 50) KNil) KNil KNil) (KIf (CByte OGe 35) (KGoto (LSt 50) KNil) KNil KNil) KNil) (KGoto (LTr 42) KNil))));
  (* machine.go:2672 st50 *) ((LSt 50), (KInc (KIf CPe (KGoto (LEofN 50) KNil) KNil KNil)));
  (* machine.go:2676 stCase50 *) ((LCase 50), (KBlk (KIf (CByte OEq 33) (KGoto (LSt 51) KNil) (KIf (CByte OEq 61) (KGoto (LTr 45) KNil) KNil KNil) KNil) (KBlk (KIf (CByte OGt 92) (KIf (CAnd (CByte OGe 94) (CByte OLe 126)) (KGoto (LSt 51) KNil) KNil KNil) (KIf (CByte OGe 35) (KGoto (LSt 51) KNil) KNil KNil) KNil) (KGoto (LTr 42) KNil))));
  (* machine.go:2692 st51 *) ((LSt 51), (KInc (KIf CPe (KGoto (LEofN 51) KNil) KNil KNil)));
  (* machine.go:2696 stCase51 *) ((LCase 51), (KIf (CByte OEq 61) (KGoto (LTr 45) KNil) KNil (KGoto (LTr 42) KNil)));
  (* machine.go:2701 tr45 *) ((LTr 45), (KAct ACurParam (KGoto (LSt 52) KNil)));
  (* machine.go:2706 st52 *) ((LSt 52), (KInc (KIf CPe (KGoto (LEofN 52) KNil) KNil KNil)));
  (* machine.go:2710 stCase52 *) ((LCase 52), (KIf (CByte OEq 34) (KGoto (LSt 53) KNil) KNil (KGoto (LTr 42) KNil)));
  (* machine.go:2715 st53 *) ((LSt 53), (KInc (KIf CPe (KGoto (LEofN 53) KNil) KNil KNil)));
  (* machine.go:2719 stCase53 *) ((LCase 53), (KBlk (KIf (CByte OEq 34) (KGoto (LTr 78) KNil) (KIf (CByte OEq 92) (KGoto (LTr 79) KNil) (KIf (CByte OEq 93) (KGoto (LTr 80) KNil) (KIf (CByte OEq 224) (KGoto (LTr 82) KNil) (KIf (CByte OEq 237) (KGoto (LTr 84) KNil) (KIf (CByte OEq 240) (KGoto (LTr 85) KNil) (KIf (CByte OEq 244) (KGoto (LTr 87) KNil) KNil KNil) KNil) KNil) KNil) KNil) KNil) KNil) (KBlk (KIf (CByte OLt 225) (KBlk (KIf (CByte OGt 193) (KIf (CAnd (CByte OGe 194) (CByte OLe 223)) (KGoto (LTr 81) KNil) KNil KNil) (KIf (CByte OGe 128) (KGoto (LTr 80) KNil) KNil KNil) KNil) KNil) (KIf (CByte OGt 239) (KBlk (KIf (CByte OGt 243) (KIf (CByte OGe 245) (KGoto (LTr 80) KNil) KNil KNil) (KIf (CByte OGe 241) (KGoto (LTr 86) KNil) KNil KNil) KNil) KNil) (KGoto (LTr 83) KNil) KNil) KNil) (KGoto (LTr 77) KNil))));
  (* machine.go:2759 tr77 *) ((LTr 77), (KAct APb (KGoto (LSt 54) KNil)));
  (* machine.go:2764 st54 *) ((LSt 54), (KInc (KIf CPe (KGoto (LEofN 54) KNil) KNil KNil)));
  (* machine.go:2768 stCase54 *) ((LCase 54), (KBlk (KIf (CByte OEq 34) (KGoto (LTr 89) KNil) (KIf (CByte OEq 92) (KGoto (LTr 90) KNil) (KIf (CByte OEq 93) (KGoto (LTr 80) KNil) (KIf (CByte OEq 224) (KGoto (LSt 58) KNil) (KIf (CByte OEq 237) (KGoto (LSt 60) KNil) (KIf (CByte OEq 240) (KGoto (LSt 61) KNil) (KIf (CByte OEq 244) (KGoto (LSt 63) KNil) KNil KNil) KNil) KNil) KNil) KNil) KNil) KNil) (KBlk (KIf (CByte OLt 225) (KBlk (KIf (CByte OGt 193) (KIf (CAnd (CByte OGe 194) (CByte OLe 223)) (KGoto (LSt 57) KNil) KNil KNil) (KIf (CByte OGe 128) (KGoto (LTr 80) KNil) KNil KNil) KNil) KNil) (KIf (CByte OGt 239) (KBlk (KIf (CByte OGt 243) (KIf (CByte OGe 245) (KGoto (LTr 80) KNil) KNil KNil) (KIf (CByte OGe 241) (KGoto (LSt 62) KNil) KNil KNil) KNil) KNil) (KGoto (LSt 59) KNil) KNil) KNil) (KGoto (LSt 54) KNil))));
  (* machine.go:2808 tr78 *) ((LTr 78), (KAct APb (KIf (CExt CHasElements) (KAct ATextLocal (KIf (CExt CHasBackslash) (KAct ATextStrip KNil) KNil (KAct ASdSetParam KNil))) KNil (KGoto (LSt 55) KNil))));
  (* machine.go:2826 tr89 *) ((LTr 89), (KIf (CExt CHasElements) (KAct ATextLocal (KIf (CExt CHasBackslash) (KAct ATextStrip KNil) KNil (KAct ASdSetParam KNil))) KNil (KGoto (LSt 55) KNil)));
  (* machine.go:2842 st55 *) ((LSt 55), (KInc (KIf CPe (KGoto (LEofN 55) KNil) KNil KNil)));
  (* machine.go:2846 stCase55 *) ((LCase 55), (KBlk (KIf (CByte OEq 32) (KGoto (LSt 19) KNil) (KIf (CByte OEq 93) (KGoto (LSt 606) KNil) KNil KNil) KNil) (KGoto (LTr 42) KNil)));
  (* machine.go:2854 tr41 *) ((LTr 41), (KAct AIdLookup (KIf (CExt CIdExists) (KAct (AErr ESdIDDuplicated) (KDec (KBlk (KGoto (LSt 614) KNil) KNil))) (KAct AIdLocal (KAct ASdNewElem (KAct (AHasElements true) (KAct ACurElem KNil)))) (KGoto (LSt 606) KNil))));
  (* machine.go:2872 st606 *) ((LSt 606), (KInc (KIf CPe (KGoto (LEofN 606) KNil) KNil KNil)));
  (* machine.go:2876 stCase606 *) ((LCase 606), (KBlk (KIf (CByte OEq 32) (KGoto (LSt 604) KNil) (KIf (CByte OEq 91) (KGoto (LSt 17) KNil) KNil KNil) KNil) (KGoto (LTr 633) KNil)));
  (* machine.go:2884 tr79 *) ((LTr 79), (KAct APb (KAct ABackAppend (KGoto (LSt 56) KNil))));
  (* machine.go:2891 tr90 *) ((LTr 90), (KAct ABackAppend (KGoto (LSt 56) KNil)));
  (* machine.go:2896 st56 *) ((LSt 56), (KInc (KIf CPe (KGoto (LEofN 56) KNil) KNil KNil)));
  (* machine.go:2900 stCase56 *) ((LCase 56), (KIf (CByte OEq 34) (KGoto (LSt 54) KNil) KNil (KIf (CAnd (CByte OGe 92) (CByte OLe 93)) (KGoto (LSt 54) KNil) KNil (KGoto (LTr 80) KNil))));
  (* machine.go:2908 tr81 *) ((LTr 81), (KAct APb (KGoto (LSt 57) KNil)));
  (* machine.go:2913 st57 *) ((LSt 57), (KInc (KIf CPe (KGoto (LEofN 57) KNil) KNil KNil)));
  (* machine.go:2917 stCase57 *) ((LCase 57), (KIf (CAnd (CByte OGe 128) (CByte OLe 191)) (KGoto (LSt 54) KNil) KNil (KGoto (LTr 42) KNil)));
  (* machine.go:2922 tr82 *) ((LTr 82), (KAct APb (KGoto (LSt 58) KNil)));
  (* machine.go:2927 st58 *) ((LSt 58), (KInc (KIf CPe (KGoto (LEofN 58) KNil) KNil KNil)));
  (* machine.go:2931 stCase58 *) ((LCase 58), (KIf (CAnd (CByte OGe 160) (CByte OLe 191)) (KGoto (LSt 57) KNil) KNil (KGoto (LTr 42) KNil)));
  (* machine.go:2936 tr83 *) ((LTr 83), (KAct APb (KGoto (LSt 59) KNil)));
  (* machine.go:2941 st59 *) ((LSt 59), (KInc (KIf CPe (KGoto (LEofN 59) KNil) KNil KNil)));
  (* machine.go:2945 stCase59 *) ((LCase 59), (KIf (CAnd (CByte OGe 128) (CByte OLe 191)) (KGoto (LSt 57) KNil) KNil (KGoto (LTr 42) KNil)));
  (* machine.go:2950 tr84 *) ((LTr 84), (KAct APb (KGoto (LSt 60) KNil)));
  (* machine.go:2955 st60 *) ((LSt 60), (KInc (KIf CPe (KGoto (LEofN 60) KNil) KNil KNil)));
  (* machine.go:2959 stCase60 *) ((LCase 60), (KIf (CAnd (CByte OGe 128) (CByte OLe 159)) (KGoto (LSt 57) KNil) KNil (KGoto (LTr 42) KNil)));
  (* machine.go:2964 tr85 *) ((LTr 85), (KAct APb (KGoto (LSt 61) KNil)));
  (* machine.go:2969 st61 *) ((LSt 61), (KInc (KIf CPe (KGoto (LEofN 61) KNil) KNil KNil)));
  (* machine.go:2973 stCase61 *) ((LCase 61), (KIf (CAnd (CByte OGe 144) (CByte OLe 191)) (KGoto (LSt 59) KNil) KNil (KGoto (LTr 42) KNil)));
  (* machine.go:2978 tr86 *) ((LTr 86), (KAct APb (KGoto (LSt 62) KNil)));
  (* machine.go:2983 st62 *) ((LSt 62), (KInc (KIf CPe (KGoto (LEofN 62) KNil) KNil KNil)))
].

(* /repo/rfc5424/machine.go *)
Definition prog5424_3 : list (label * code act cnd) := [
  (* machine.go:2987 stCase62 *) ((LCase 62), (KIf (CAnd (CByte OGe 128) (CByte OLe 191)) (KGoto (LSt 59) KNil) KNil (KGoto (LTr 42) KNil)));
  (* machine.go:2992 tr87 *) ((LTr 87), (KAct APb (KGoto (LSt 63) KNil)));
  (* machine.go:2997 st63 *) ((LSt 63), (KInc (KIf CPe (KGoto (LEofN 63) KNil) KNil KNil)));
  (* machine.go:3001 stCase63 *) ((LCase 63), (KIf (CAnd (CByte OGe 128) (CByte OLe 143)) (KGoto (LSt 59) KNil) KNil (KGoto (LTr 42) KNil)));
  (* machine.go:3006 st64 *) ((LSt 64), (KInc (KIf CPe (KGoto (LEofN 64) KNil) KNil KNil)));
  (* machine.go:3010 stCase64 *) ((LCase 64), (KBlk (KIf (CByte OEq 32) (KGoto (LTr 39) KNil) (KIf (CByte OEq 33) (KGoto (LSt 65) KNil) (KIf (CByte OEq 93) (KGoto (LTr 41) KNil) KNil KNil) KNil) KNil) (KBlk (KIf (CByte OGt 60) (KIf (CAnd (CByte OGe 62) (CByte OLe 126)) (KGoto (LSt 65) KNil) KNil KNil) (KIf (CByte OGe 35) (KGoto (LSt 65) KNil) KNil KNil) KNil) (KGoto (LTr 38) KNil))));
  (* machine.go:3028 st65 *) ((LSt 65), (KInc (KIf CPe (KGoto (LEofN 65) KNil) KNil KNil)));
  (* machine.go:3032 stCase65 *) ((LCase 65), (KBlk (KIf (CByte OEq 32) (KGoto (LTr 39) KNil) (KIf (CByte OEq 33) (KGoto (LSt 66) KNil) (KIf (CByte OEq 93) (KGoto (LTr 41) KNil) KNil KNil) KNil) KNil) (KBlk (KIf (CByte OGt 60) (KIf (CAnd (CByte OGe 62) (CByte OLe 126)) (KGoto (LSt 66) KNil) KNil KNil) (KIf (CByte OGe 35) (KGoto (LSt 66) KNil) KNil KNil) KNil) (KGoto (LTr 38) KNil))));
  (* machine.go:3050 st66 *) ((LSt 66), (KInc (KIf CPe (KGoto (LEofN 66) KNil) KNil KNil)));
  (* machine.go:3054 stCase66 *) ((LCase 66), (KBlk (KIf (CByte OEq 32) (KGoto (LTr 39) KNil) (KIf (CByte OEq 33) (KGoto (LSt 67) KNil) (KIf (CByte OEq 93) (KGoto (LTr 41) KNil) KNil KNil) KNil) KNil) (KBlk (KIf (CByte OGt 60) (KIf (CAnd (CByte OGe 62) (CByte OLe 126)) (KGoto (LSt 67) KNil) KNil KNil) (KIf (CByte OGe 35) (KGoto (LSt 67) KNil) KNil KNil) KNil) (KGoto (LTr 38) KNil))));
  (* machine.go:3072 st67 *) ((LSt 67), (KInc (KIf CPe (KGoto (LEofN 67) KNil) KNil KNil)));
  (* machine.go:3076 stCase67 *) ((LCase 67), (KBlk (KIf (CByte OEq 32) (KGoto (LTr 39) KNil) (KIf (CByte OEq 33) (KGoto (LSt 68) KNil) (KIf (CByte OEq 93) (KGoto (LTr 41) KNil) KNil KNil) KNil) KNil) (KBlk (KIf (CByte OGt 60) (KIf (CAnd (CByte OGe 62) (CByte OLe 126)) (KGoto (LSt 68) KNil) KNil KNil) (KIf (CByte OGe 35) (KGoto (LSt 68) KNil) KNil KNil) KNil) (KGoto (LTr 38) KNil))));
  (* machine.go:3094 st68 *) ((LSt 68), (KInc (KIf CPe (KGoto (LEofN 68) KNil) KNil KNil)));
  (* machine.go:3098 stCase68 *) ((LCase 68), (KBlk (KIf (CByte OEq 32) (KGoto (LTr 39) KNil) (KIf (CByte OEq 33) (KGoto (LSt 69) KNil) (KIf (CByte OEq 93) (KGoto (LTr 41) KNil) KNil KNil) KNil) KNil) (KBlk (KIf (CByte OGt 60) (KIf (CAnd (CByte OGe 62) (CByte OLe 126)) (KGoto (LSt 69) KNil) KNil KNil) (KIf (CByte OGe 35) (KGoto (LSt 69) KNil) KNil KNil) KNil) (KGoto (LTr 38) KNil))));
  (* machine.go:3116 st69 *) ((LSt 69), (KInc (KIf CPe (KGoto (LEofN 69) KNil) KNil KNil)));
  (* machine.go:3120 stCase69 *) ((LCase 69), (KBlk (KIf (CByte OEq 32) (KGoto (LTr 39) KNil) (KIf (CByte OEq 33) (KGoto (LSt 70) KNil) (KIf (CByte OEq 93) (KGoto (LTr 41) KNil) KNil KNil) KNil) KNil) (KBlk (KIf (CByte OGt 60) (KIf (CAnd (CByte OGe 62) (CByte OLe 126)) (KGoto (LSt 70) KNil) KNil KNil) (KIf (CByte OGe 35) (KGoto (LSt 70) KNil) KNil KNil) KNil) (KGoto (LTr 38) KNil))));
  (* machine.go:3138 st70 *) ((LSt 70), (KInc (KIf CPe (KGoto (LEofN 70) KNil) KNil KNil)));
  (* machine.go:3142 stCase70 *) ((LCase 70), (KBlk (KIf (CByte OEq 32) (KGoto (LTr 39) KNil) (KIf (CByte OEq 33) (KGoto (LSt 71) KNil) (KIf (CByte OEq 93) (KGoto (LTr 41) KNil) KNil KNil) KNil) KNil) (KBlk (KIf (CByte OGt 60) (KIf (CAnd (CByte OGe 62) (CByte OLe 126)) (KGoto (LSt 71) KNil) KNil KNil) (KIf (CByte OGe 35) (KGoto (LSt 71) KNil) KNil KNil) KNil) (KGoto (LTr 38) KNil))));
  (* machine.go:3160 st71 *) ((LSt 71), (KInc (KIf CPe (KGoto (LEofN 71) KNil) KNil KNil)));
  (* machine.go:3164 stCase71 *) ((LCase 71), (KBlk (KIf (CByte OEq 32) (KGoto (LTr 39) KNil) (KIf (CByte OEq 33) (KGoto (LSt 72) KNil) (KIf (CByte OEq 93) (KGoto (LTr 41) KNil) KNil KNil) KNil) KNil) (KBlk (KIf (CByte OGt 60) (KIf (CAnd (CByte OGe 62) (CByte OLe 126)) (KGoto (LSt 72) KNil) KNil KNil) (KIf (CByte OGe 35) (KGoto (LSt 72) KNil) KNil KNil) KNil) (KGoto (LTr 38) KNil))));
  (* machine.go:3182 st72 *) ((LSt 72), (KInc (KIf CPe (KGoto (LEofN 72) KNil) KNil KNil)));
  (* machine.go:3186 stCase72 *) ((LCase 72), (KBlk (KIf (CByte OEq 32) (KGoto (LTr 39) KNil) (KIf (CByte OEq 33) (KGoto (LSt 73) KNil) (KIf (CByte OEq 93) (KGoto (LTr 41) KNil) KNil KNil) KNil) KNil) (KBlk (KIf (CByte OGt 60) (KIf (CAnd (CByte OGe 62) (CByte OLe 126)) (KGoto (LSt 73) KNil) KNil KNil) (KIf (CByte OGe 35) (KGoto (LSt 73) KNil) KNil KNil) KNil) (KGoto (LTr 38) KNil))));
  (* machine.go:3204 st73 *) ((LSt 73), (KInc (KIf CPe (KGoto (LEofN 73) KNil) KNil KNil)));
  (* machine.go:3208 stCase73 *) ((LCase 73), (KBlk (KIf (CByte OEq 32) (KGoto (LTr 39) KNil) (KIf (CByte OEq 33) (KGoto (LSt 74) KNil) (KIf (CByte OEq 93) (KGoto (LTr 41) KNil) KNil KNil) KNil) KNil) (KBlk (KIf (CByte OGt 60) (KIf (CAnd (CByte OGe 62) (CByte OLe 126)) (KGoto (LSt 74) KNil) KNil KNil) (KIf (CByte OGe 35) (KGoto (LSt 74) KNil) KNil KNil) KNil) (KGoto (LTr 38) KNil))));
  (* machine.go:3226 st74 *) ((LSt 74), (KInc (KIf CPe (KGoto (LEofN 74) KNil) KNil KNil)));
  (* machine.go:3230 stCase74 *) ((LCase 74), (KBlk (KIf (CByte OEq 32) (KGoto (LTr 39) KNil) (KIf (CByte OEq 33) (KGoto (LSt 75) KNil) (KIf (CByte OEq 93) (KGoto (LTr 41) KNil) KNil KNil) KNil) KNil) (KBlk (KIf (CByte OGt 60) (KIf (CAnd (CByte OGe 62) (CByte OLe 126)) (KGoto (LSt 75) KNil) KNil KNil) (KIf (CByte OGe 35) (KGoto (LSt 75) KNil) KNil KNil) KNil) (KGoto (LTr 38) KNil))));
  (* machine.go:3248 st75 *) ((LSt 75), (KInc (KIf CPe (KGoto (LEofN 75) KNil) KNil KNil)));
  (* machine.go:3252 stCase75 *) ((LCase 75), (KBlk (KIf (CByte OEq 32) (KGoto (LTr 39) KNil) (KIf (CByte OEq 33) (KGoto (LSt 76) KNil) (KIf (CByte OEq 93) (KGoto (LTr 41) KNil) KNil KNil) KNil) KNil) (KBlk (KIf (CByte OGt 60) (KIf (CAnd (CByte OGe 62) (CByte OLe 126)) (KGoto (LSt 76) KNil) KNil KNil) (KIf (CByte OGe 35) (KGoto (LSt 76) KNil) KNil KNil) KNil) (KGoto (LTr 38) KNil))));
  (* machine.go:3270 st76 *) ((LSt 76), (KInc (KIf CPe (KGoto (LEofN 76) KNil) KNil KNil)));
  (* machine.go:3274 stCase76 *) ((LCase 76), (KBlk (KIf (CByte OEq 32) (KGoto (LTr 39) KNil) (KIf (CByte OEq 33) (KGoto (LSt 77) KNil) (KIf (CByte OEq 93) (KGoto (LTr 41) KNil) KNil KNil) KNil) KNil) (KBlk (KIf (CByte OGt 60) (KIf (CAnd (CByte OGe 62) (CByte OLe 126)) (KGoto (LSt 77) KNil) KNil KNil) (KIf (CByte OGe 35) (KGoto (LSt 77) KNil) KNil KNil) KNil) (KGoto (LTr 38) KNil))));
  (* machine.go:3292 st77 *) ((LSt 77), (KInc (KIf CPe (KGoto (LEofN 77) KNil) KNil KNil)));
  (* machine.go:3296 stCase77 *) ((LCase 77), (KBlk (KIf (CByte OEq 32) (KGoto (LTr 39) KNil) (KIf (CByte OEq 33) (KGoto (LSt 78) KNil) (KIf (CByte OEq 93) (KGoto (LTr 41) KNil) KNil KNil) KNil) KNil) (KBlk (KIf (CByte OGt 60) (KIf (CAnd (CByte OGe 62) (CByte OLe 126)) (KGoto (LSt 78) KNil) KNil KNil) (KIf (CByte OGe 35) (KGoto (LSt 78) KNil) KNil KNil) KNil) (KGoto (LTr 38) KNil))));
  (* machine.go:3314 st78 *) ((LSt 78), (KInc (KIf CPe (KGoto (LEofN 78) KNil) KNil KNil)));
  (* machine.go:3318 stCase78 *) ((LCase 78), (KBlk (KIf (CByte OEq 32) (KGoto (LTr 39) KNil) (KIf (CByte OEq 33) (KGoto (LSt 79) KNil) (KIf (CByte OEq 93) (KGoto (LTr 41) KNil) KNil KNil) KNil) KNil) (KBlk (KIf (CByte OGt 60) (KIf (CAnd (CByte OGe 62) (CByte OLe 126)) (KGoto (LSt 79) KNil) KNil KNil) (KIf (CByte OGe 35) (KGoto (LSt 79) KNil) KNil KNil) KNil) (KGoto (LTr 38) KNil))));
  (* machine.go:3336 st79 *) ((LSt 79), (KInc (KIf CPe (KGoto (LEofN 79) KNil) KNil KNil)));
  (* machine.go:3340 stCase79 *) ((LCase 79), (KBlk (KIf (CByte OEq 32) (KGoto (LTr 39) KNil) (KIf (CByte OEq 33) (KGoto (LSt 80) KNil) (KIf (CByte OEq 93) (KGoto (LTr 41) KNil) KNil KNil) KNil) KNil) (KBlk (KIf (CByte OGt 60) (KIf (CAnd (CByte OGe 62) (CByte OLe 126)) (KGoto (LSt 80) KNil) KNil KNil) (KIf (CByte OGe 35) (KGoto (LSt 80) KNil) KNil KNil) KNil) (KGoto (LTr 38) KNil))));
  (* machine.go:3358 st80 *) ((LSt 80), (KInc (KIf CPe (KGoto (LEofN 80) KNil) KNil KNil)));
  (* machine.go:3362 stCase80 *) ((LCase 80), (KBlk (KIf (CByte OEq 32) (KGoto (LTr 39) KNil) (KIf (CByte OEq 33) (KGoto (LSt 81) KNil) (KIf (CByte OEq 93) (KGoto (LTr 41) KNil) KNil KNil) KNil) KNil) (KBlk (KIf (CByte OGt 60) (KIf (CAnd (CByte OGe 62) (CByte OLe 126)) (KGoto (LSt 81) KNil) KNil KNil) (KIf (CByte OGe 35) (KGoto (LSt 81) KNil) KNil KNil) KNil) (KGoto (LTr 38) KNil))));
  (* machine.go:3380 st81 *) ((LSt 81), (KInc (KIf CPe (KGoto (LEofN 81) KNil) KNil KNil)));
  (* machine.go:3384 stCase81 *) ((LCase 81), (KBlk (KIf (CByte OEq 32) (KGoto (LTr 39) KNil) (KIf (CByte OEq 33) (KGoto (LSt 82) KNil) (KIf (CByte OEq 93) (KGoto (LTr 41) KNil) KNil KNil) KNil) KNil) (KBlk (KIf (CByte OGt 60) (KIf (CAnd (CByte OGe 62) (CByte OLe 126)) (KGoto (LSt 82) KNil) KNil KNil) (KIf (CByte OGe 35) (KGoto (LSt 82) KNil) KNil KNil) KNil) (KGoto (LTr 38) KNil))));
  (* machine.go:3402 st82 *) ((LSt 82), (KInc (KIf CPe (KGoto (LEofN 82) KNil) KNil KNil)));
  (* machine.go:3406 stCase82 *) ((LCase 82), (KBlk (KIf (CByte OEq 32) (KGoto (LTr 39) KNil) (KIf (CByte OEq 33) (KGoto (LSt 83) KNil) (KIf (CByte OEq 93) (KGoto (LTr 41) KNil) KNil KNil) KNil) KNil) (KBlk (KIf (CByte OGt 60) (KIf (CAnd (CByte OGe 62) (CByte OLe 126)) (KGoto (LSt 83) KNil) KNil KNil) (KIf (CByte OGe 35) (KGoto (LSt 83) KNil) KNil KNil) KNil) (KGoto (LTr 38) KNil))));
  (* machine.go:3424 st83 *) ((LSt 83), (KInc (KIf CPe (KGoto (LEofN 83) KNil) KNil KNil)));
  (* machine.go:3428 stCase83 *) ((LCase 83), (KBlk (KIf (CByte OEq 32) (KGoto (LTr 39) KNil) (KIf (CByte OEq 33) (KGoto (LSt 84) KNil) (KIf (CByte OEq 93) (KGoto (LTr 41) KNil) KNil KNil) KNil) KNil) (KBlk (KIf (CByte OGt 60) (KIf (CAnd (CByte OGe 62) (CByte OLe 126)) (KGoto (LSt 84) KNil) KNil KNil) (KIf (CByte OGe 35) (KGoto (LSt 84) KNil) KNil KNil) KNil) (KGoto (LTr 38) KNil))));
  (* machine.go:3446 st84 *) ((LSt 84), (KInc (KIf CPe (KGoto (LEofN 84) KNil) KNil KNil)));
  (* machine.go:3450 stCase84 *) ((LCase 84), (KBlk (KIf (CByte OEq 32) (KGoto (LTr 39) KNil) (KIf (CByte OEq 33) (KGoto (LSt 85) KNil) (KIf (CByte OEq 93) (KGoto (LTr 41) KNil) KNil KNil) KNil) KNil) (KBlk (KIf (CByte OGt 60) (KIf (CAnd (CByte OGe 62) (CByte OLe 126)) (KGoto (LSt 85) KNil) KNil KNil) (KIf (CByte OGe 35) (KGoto (LSt 85) KNil) KNil KNil) KNil) (KGoto (LTr 38) KNil))));
  (* machine.go:3468 st85 *) ((LSt 85), (KInc (KIf CPe (KGoto (LEofN 85) KNil) KNil KNil)));
  (* machine.go:3472 stCase85 *) ((LCase 85), (KBlk (KIf (CByte OEq 32) (KGoto (LTr 39) KNil) (KIf (CByte OEq 33) (KGoto (LSt 86) KNil) (KIf (CByte OEq 93) (KGoto (LTr 41) KNil) KNil KNil) KNil) KNil) (KBlk (KIf (CByte OGt 60) (KIf (CAnd (CByte OGe 62) (CByte OLe 126)) (KGoto (LSt 86) KNil) KNil KNil) (KIf (CByte OGe 35) (KGoto (LSt 86) KNil) KNil KNil) KNil) (KGoto (LTr 38) KNil))));
  (* machine.go:3490 st86 *) ((LSt 86), (KInc (KIf CPe (KGoto (LEofN 86) KNil) KNil KNil)));
  (* machine.go:3494 stCase86 *) ((LCase 86), (KBlk (KIf (CByte OEq 32) (KGoto (LTr 39) KNil) (KIf (CByte OEq 33) (KGoto (LSt 87) KNil) (KIf (CByte OEq 93) (KGoto (LTr 41) KNil) KNil KNil) KNil) KNil) (KBlk (KIf (CByte OGt 60) (KIf (CAnd (CByte OGe 62) (CByte OLe 126)) (KGoto (LSt 87) KNil) KNil KNil) (KIf (CByte OGe 35) (KGoto (LSt 87) KNil) KNil KNil) KNil) (KGoto (LTr 38) KNil))));
  (* machine.go:3512 st87 *) ((LSt 87), (KInc (KIf CPe (KGoto (LEofN 87) KNil) KNil KNil)));
  (* machine.go:3516 stCase87 *) ((LCase 87), (KBlk (KIf (CByte OEq 32) (KGoto (LTr 39) KNil) (KIf (CByte OEq 33) (KGoto (LSt 88) KNil) (KIf (CByte OEq 93) (KGoto (LTr 41) KNil) KNil KNil) KNil) KNil) (KBlk (KIf (CByte OGt 60) (KIf (CAnd (CByte OGe 62) (CByte OLe 126)) (KGoto (LSt 88) KNil) KNil KNil) (KIf (CByte OGe 35) (KGoto (LSt 88) KNil) KNil KNil) KNil) (KGoto (LTr 38) KNil))));
  (* machine.go:3534 st88 *) ((LSt 88), (KInc (KIf CPe (KGoto (LEofN 88) KNil) KNil KNil)));
  (* machine.go:3538 stCase88 *) ((LCase 88), (KBlk (KIf (CByte OEq 32) (KGoto (LTr 39) KNil) (KIf (CByte OEq 33) (KGoto (LSt 89) KNil) (KIf (CByte OEq 93) (KGoto (LTr 41) KNil) KNil KNil) KNil) KNil) (KBlk (KIf (CByte OGt 60) (KIf (CAnd (CByte OGe 62) (CByte OLe 126)) (KGoto (LSt 89) KNil) KNil KNil) (KIf (CByte OGe 35) (KGoto (LSt 89) KNil) KNil KNil) KNil) (KGoto (LTr 38) KNil))));
  (* machine.go:3556 st89 *) ((LSt 89), (KInc (KIf CPe (KGoto (LEofN 89) KNil) KNil KNil)));
  (* machine.go:3560 stCase89 *) ((LCase 89), (KBlk (KIf (CByte OEq 32) (KGoto (LTr 39) KNil) (KIf (CByte OEq 33) (KGoto (LSt 90) KNil) (KIf (CByte OEq 93) (KGoto (LTr 41) KNil) KNil KNil) KNil) KNil) (KBlk (KIf (CByte OGt 60) (KIf (CAnd (CByte OGe 62) (CByte OLe 126)) (KGoto (LSt 90) KNil) KNil KNil) (KIf (CByte OGe 35) (KGoto (LSt 90) KNil) KNil KNil) KNil) (KGoto (LTr 38) KNil))));
  (* machine.go:3578 st90 *) ((LSt 90), (KInc (KIf CPe (KGoto (LEofN 90) KNil) KNil KNil)));
  (* machine.go:3582 stCase90 *) ((LCase 90), (KBlk (KIf (CByte OEq 32) (KGoto (LTr 39) KNil) (KIf (CByte OEq 33) (KGoto (LSt 91) KNil) (KIf (CByte OEq 93) (KGoto (LTr 41) KNil) KNil KNil) KNil) KNil) (KBlk (KIf (CByte OGt 60) (KIf (CAnd (CByte OGe 62) (CByte OLe 126)) (KGoto (LSt 91) KNil) KNil KNil) (KIf (CByte OGe 35) (KGoto (LSt 91) KNil) KNil KNil) KNil) (KGoto (LTr 38) KNil))));
  (* machine.go:3600 st91 *) ((LSt 91), (KInc (KIf CPe (KGoto (LEofN 91) KNil) KNil KNil)));
  (* machine.go:3604 stCase91 *) ((LCase 91), (KBlk (KIf (CByte OEq 32) (KGoto (LTr 39) KNil) (KIf (CByte OEq 33) (KGoto (LSt 92) KNil) (KIf (CByte OEq 93) (KGoto (LTr 41) KNil) KNil KNil) KNil) KNil) (KBlk (KIf (CByte OGt 60) (KIf (CAnd (CByte OGe 62) (CByte OLe 126)) (KGoto (LSt 92) KNil) KNil KNil) (KIf (CByte OGe 35) (KGoto (LSt 92) KNil) KNil KNil) KNil) (KGoto (LTr 38) KNil))))
].

(* /repo/rfc5424/machine.go *)
Definition prog5424_4 : list (label * code act cnd) := [
  (* machine.go:3622 st92 *) ((LSt 92), (KInc (KIf CPe (KGoto (LEofN 92) KNil) KNil KNil)));
  (* machine.go:3626 stCase92 *) ((LCase 92), (KBlk (KIf (CByte OEq 32) (KGoto (LTr 39) KNil) (KIf (CByte OEq 33) (KGoto (LSt 93) KNil) (KIf (CByte OEq 93) (KGoto (LTr 41) KNil) KNil KNil) KNil) KNil) (KBlk (KIf (CByte OGt 60) (KIf (CAnd (CByte OGe 62) (CByte OLe 126)) (KGoto (LSt 93) KNil) KNil KNil) (KIf (CByte OGe 35) (KGoto (LSt 93) KNil) KNil KNil) KNil) (KGoto (LTr 38) KNil))));
  (* machine.go:3644 st93 *) ((LSt 93), (KInc (KIf CPe (KGoto (LEofN 93) KNil) KNil KNil)));
  (* machine.go:3648 stCase93 *) ((LCase 93), (KBlk (KIf (CByte OEq 32) (KGoto (LTr 39) KNil) (KIf (CByte OEq 33) (KGoto (LSt 94) KNil) (KIf (CByte OEq 93) (KGoto (LTr 41) KNil) KNil KNil) KNil) KNil) (KBlk (KIf (CByte OGt 60) (KIf (CAnd (CByte OGe 62) (CByte OLe 126)) (KGoto (LSt 94) KNil) KNil KNil) (KIf (CByte OGe 35) (KGoto (LSt 94) KNil) KNil KNil) KNil) (KGoto (LTr 38) KNil))));
  (* machine.go:3666 st94 *) ((LSt 94), (KInc (KIf CPe (KGoto (LEofN 94) KNil) KNil KNil)));
  (* machine.go:3670 stCase94 *) ((LCase 94), (KBlk (KIf (CByte OEq 32) (KGoto (LTr 39) KNil) (KIf (CByte OEq 93) (KGoto (LTr 41) KNil) KNil KNil) KNil) (KGoto (LTr 38) KNil)));
  (* machine.go:3678 st95 *) ((LSt 95), (KInc (KIf CPe (KGoto (LEofN 95) KNil) KNil KNil)));
  (* machine.go:3682 stCase95 *) ((LCase 95), (KIf (CByte OEq 32) (KGoto (LTr 31) KNil) KNil (KIf (CAnd (CByte OGe 33) (CByte OLe 126)) (KGoto (LSt 96) KNil) KNil (KGoto (LTr 30) KNil))));
  (* machine.go:3690 st96 *) ((LSt 96), (KInc (KIf CPe (KGoto (LEofN 96) KNil) KNil KNil)));
  (* machine.go:3694 stCase96 *) ((LCase 96), (KIf (CByte OEq 32) (KGoto (LTr 31) KNil) KNil (KIf (CAnd (CByte OGe 33) (CByte OLe 126)) (KGoto (LSt 97) KNil) KNil (KGoto (LTr 30) KNil))));
  (* machine.go:3702 st97 *) ((LSt 97), (KInc (KIf CPe (KGoto (LEofN 97) KNil) KNil KNil)));
  (* machine.go:3706 stCase97 *) ((LCase 97), (KIf (CByte OEq 32) (KGoto (LTr 31) KNil) KNil (KIf (CAnd (CByte OGe 33) (CByte OLe 126)) (KGoto (LSt 98) KNil) KNil (KGoto (LTr 30) KNil))));
  (* machine.go:3714 st98 *) ((LSt 98), (KInc (KIf CPe (KGoto (LEofN 98) KNil) KNil KNil)));
  (* machine.go:3718 stCase98 *) ((LCase 98), (KIf (CByte OEq 32) (KGoto (LTr 31) KNil) KNil (KIf (CAnd (CByte OGe 33) (CByte OLe 126)) (KGoto (LSt 99) KNil) KNil (KGoto (LTr 30) KNil))));
  (* machine.go:3726 st99 *) ((LSt 99), (KInc (KIf CPe (KGoto (LEofN 99) KNil) KNil KNil)));
  (* machine.go:3730 stCase99 *) ((LCase 99), (KIf (CByte OEq 32) (KGoto (LTr 31) KNil) KNil (KIf (CAnd (CByte OGe 33) (CByte OLe 126)) (KGoto (LSt 100) KNil) KNil (KGoto (LTr 30) KNil))));
  (* machine.go:3738 st100 *) ((LSt 100), (KInc (KIf CPe (KGoto (LEofN 100) KNil) KNil KNil)));
  (* machine.go:3742 stCase100 *) ((LCase 100), (KIf (CByte OEq 32) (KGoto (LTr 31) KNil) KNil (KIf (CAnd (CByte OGe 33) (CByte OLe 126)) (KGoto (LSt 101) KNil) KNil (KGoto (LTr 30) KNil))));
  (* machine.go:3750 st101 *) ((LSt 101), (KInc (KIf CPe (KGoto (LEofN 101) KNil) KNil KNil)));
  (* machine.go:3754 stCase101 *) ((LCase 101), (KIf (CByte OEq 32) (KGoto (LTr 31) KNil) KNil (KIf (CAnd (CByte OGe 33) (CByte OLe 126)) (KGoto (LSt 102) KNil) KNil (KGoto (LTr 30) KNil))));
  (* machine.go:3762 st102 *) ((LSt 102), (KInc (KIf CPe (KGoto (LEofN 102) KNil) KNil KNil)));
  (* machine.go:3766 stCase102 *) ((LCase 102), (KIf (CByte OEq 32) (KGoto (LTr 31) KNil) KNil (KIf (CAnd (CByte OGe 33) (CByte OLe 126)) (KGoto (LSt 103) KNil) KNil (KGoto (LTr 30) KNil))));
  (* machine.go:3774 st103 *) ((LSt 103), (KInc (KIf CPe (KGoto (LEofN 103) KNil) KNil KNil)));
  (* machine.go:3778 stCase103 *) ((LCase 103), (KIf (CByte OEq 32) (KGoto (LTr 31) KNil) KNil (KIf (CAnd (CByte OGe 33) (CByte OLe 126)) (KGoto (LSt 104) KNil) KNil (KGoto (LTr 30) KNil))));
  (* machine.go:3786 st104 *) ((LSt 104), (KInc (KIf CPe (KGoto (LEofN 104) KNil) KNil KNil)));
  (* machine.go:3790 stCase104 *) ((LCase 104), (KIf (CByte OEq 32) (KGoto (LTr 31) KNil) KNil (KIf (CAnd (CByte OGe 33) (CByte OLe 126)) (KGoto (LSt 105) KNil) KNil (KGoto (LTr 30) KNil))));
  (* machine.go:3798 st105 *) ((LSt 105), (KInc (KIf CPe (KGoto (LEofN 105) KNil) KNil KNil)));
  (* machine.go:3802 stCase105 *) ((LCase 105), (KIf (CByte OEq 32) (KGoto (LTr 31) KNil) KNil (KIf (CAnd (CByte OGe 33) (CByte OLe 126)) (KGoto (LSt 106) KNil) KNil (KGoto (LTr 30) KNil))));
  (* machine.go:3810 st106 *) ((LSt 106), (KInc (KIf CPe (KGoto (LEofN 106) KNil) KNil KNil)));
  (* machine.go:3814 stCase106 *) ((LCase 106), (KIf (CByte OEq 32) (KGoto (LTr 31) KNil) KNil (KIf (CAnd (CByte OGe 33) (CByte OLe 126)) (KGoto (LSt 107) KNil) KNil (KGoto (LTr 30) KNil))));
  (* machine.go:3822 st107 *) ((LSt 107), (KInc (KIf CPe (KGoto (LEofN 107) KNil) KNil KNil)));
  (* machine.go:3826 stCase107 *) ((LCase 107), (KIf (CByte OEq 32) (KGoto (LTr 31) KNil) KNil (KIf (CAnd (CByte OGe 33) (CByte OLe 126)) (KGoto (LSt 108) KNil) KNil (KGoto (LTr 30) KNil))));
  (* machine.go:3834 st108 *) ((LSt 108), (KInc (KIf CPe (KGoto (LEofN 108) KNil) KNil KNil)));
  (* machine.go:3838 stCase108 *) ((LCase 108), (KIf (CByte OEq 32) (KGoto (LTr 31) KNil) KNil (KIf (CAnd (CByte OGe 33) (CByte OLe 126)) (KGoto (LSt 109) KNil) KNil (KGoto (LTr 30) KNil))));
  (* machine.go:3846 st109 *) ((LSt 109), (KInc (KIf CPe (KGoto (LEofN 109) KNil) KNil KNil)));
  (* machine.go:3850 stCase109 *) ((LCase 109), (KIf (CByte OEq 32) (KGoto (LTr 31) KNil) KNil (KIf (CAnd (CByte OGe 33) (CByte OLe 126)) (KGoto (LSt 110) KNil) KNil (KGoto (LTr 30) KNil))));
  (* machine.go:3858 st110 *) ((LSt 110), (KInc (KIf CPe (KGoto (LEofN 110) KNil) KNil KNil)));
  (* machine.go:3862 stCase110 *) ((LCase 110), (KIf (CByte OEq 32) (KGoto (LTr 31) KNil) KNil (KIf (CAnd (CByte OGe 33) (CByte OLe 126)) (KGoto (LSt 111) KNil) KNil (KGoto (LTr 30) KNil))));
  (* machine.go:3870 st111 *) ((LSt 111), (KInc (KIf CPe (KGoto (LEofN 111) KNil) KNil KNil)));
  (* machine.go:3874 stCase111 *) ((LCase 111), (KIf (CByte OEq 32) (KGoto (LTr 31) KNil) KNil (KIf (CAnd (CByte OGe 33) (CByte OLe 126)) (KGoto (LSt 112) KNil) KNil (KGoto (LTr 30) KNil))));
  (* machine.go:3882 st112 *) ((LSt 112), (KInc (KIf CPe (KGoto (LEofN 112) KNil) KNil KNil)));
  (* machine.go:3886 stCase112 *) ((LCase 112), (KIf (CByte OEq 32) (KGoto (LTr 31) KNil) KNil (KIf (CAnd (CByte OGe 33) (CByte OLe 126)) (KGoto (LSt 113) KNil) KNil (KGoto (LTr 30) KNil))));
  (* machine.go:3894 st113 *) ((LSt 113), (KInc (KIf CPe (KGoto (LEofN 113) KNil) KNil KNil)));
  (* machine.go:3898 stCase113 *) ((LCase 113), (KIf (CByte OEq 32) (KGoto (LTr 31) KNil) KNil (KIf (CAnd (CByte OGe 33) (CByte OLe 126)) (KGoto (LSt 114) KNil) KNil (KGoto (LTr 30) KNil))));
  (* machine.go:3906 st114 *) ((LSt 114), (KInc (KIf CPe (KGoto (LEofN 114) KNil) KNil KNil)));
  (* machine.go:3910 stCase114 *) ((LCase 114), (KIf (CByte OEq 32) (KGoto (LTr 31) KNil) KNil (KIf (CAnd (CByte OGe 33) (CByte OLe 126)) (KGoto (LSt 115) KNil) KNil (KGoto (LTr 30) KNil))));
  (* machine.go:3918 st115 *) ((LSt 115), (KInc (KIf CPe (KGoto (LEofN 115) KNil) KNil KNil)));
  (* machine.go:3922 stCase115 *) ((LCase 115), (KIf (CByte OEq 32) (KGoto (LTr 31) KNil) KNil (KIf (CAnd (CByte OGe 33) (CByte OLe 126)) (KGoto (LSt 116) KNil) KNil (KGoto (LTr 30) KNil))));
  (* machine.go:3930 st116 *) ((LSt 116), (KInc (KIf CPe (KGoto (LEofN 116) KNil) KNil KNil)));
  (* machine.go:3934 stCase116 *) ((LCase 116), (KIf (CByte OEq 32) (KGoto (LTr 31) KNil) KNil (KIf (CAnd (CByte OGe 33) (CByte OLe 126)) (KGoto (LSt 117) KNil) KNil (KGoto (LTr 30) KNil))));
  (* machine.go:3942 st117 *) ((LSt 117), (KInc (KIf CPe (KGoto (LEofN 117) KNil) KNil KNil)));
  (* machine.go:3946 stCase117 *) ((LCase 117), (KIf (CByte OEq 32) (KGoto (LTr 31) KNil) KNil (KIf (CAnd (CByte OGe 33) (CByte OLe 126)) (KGoto (LSt 118) KNil) KNil (KGoto (LTr 30) KNil))));
  (* machine.go:3954 st118 *) ((LSt 118), (KInc (KIf CPe (KGoto (LEofN 118) KNil) KNil KNil)));
  (* machine.go:3958 stCase118 *) ((LCase 118), (KIf (CByte OEq 32) (KGoto (LTr 31) KNil) KNil (KIf (CAnd (CByte OGe 33) (CByte OLe 126)) (KGoto (LSt 119) KNil) KNil (KGoto (LTr 30) KNil))));
  (* machine.go:3966 st119 *) ((LSt 119), (KInc (KIf CPe (KGoto (LEofN 119) KNil) KNil KNil)));
  (* machine.go:3970 stCase119 *) ((LCase 119), (KIf (CByte OEq 32) (KGoto (LTr 31) KNil) KNil (KIf (CAnd (CByte OGe 33) (CByte OLe 126)) (KGoto (LSt 120) KNil) KNil (KGoto (LTr 30) KNil))));
  (* machine.go:3978 st120 *) ((LSt 120), (KInc (KIf CPe (KGoto (LEofN 120) KNil) KNil KNil)));
  (* machine.go:3982 stCase120 *) ((LCase 120), (KIf (CByte OEq 32) (KGoto (LTr 31) KNil) KNil (KIf (CAnd (CByte OGe 33) (CByte OLe 126)) (KGoto (LSt 121) KNil) KNil (KGoto (LTr 30) KNil))));
  (* machine.go:3990 st121 *) ((LSt 121), (KInc (KIf CPe (KGoto (LEofN 121) KNil) KNil KNil)));
  (* machine.go:3994 stCase121 *) ((LCase 121), (KIf (CByte OEq 32) (KGoto (LTr 31) KNil) KNil (KIf (CAnd (CByte OGe 33) (CByte OLe 126)) (KGoto (LSt 122) KNil) KNil (KGoto (LTr 30) KNil))))
].

(* /repo/rfc5424/machine.go *)
Definition prog5424_5 : list (label * code act cnd) := [
  (* machine.go:4002 st122 *) ((LSt 122), (KInc (KIf CPe (KGoto (LEofN 122) KNil) KNil KNil)));
  (* machine.go:4006 stCase122 *) ((LCase 122), (KIf (CByte OEq 32) (KGoto (LTr 31) KNil) KNil (KIf (CAnd (CByte OGe 33) (CByte OLe 126)) (KGoto (LSt 123) KNil) KNil (KGoto (LTr 30) KNil))));
  (* machine.go:4014 st123 *) ((LSt 123), (KInc (KIf CPe (KGoto (LEofN 123) KNil) KNil KNil)));
  (* machine.go:4018 stCase123 *) ((LCase 123), (KIf (CByte OEq 32) (KGoto (LTr 31) KNil) KNil (KIf (CAnd (CByte OGe 33) (CByte OLe 126)) (KGoto (LSt 124) KNil) KNil (KGoto (LTr 30) KNil))));
  (* machine.go:4026 st124 *) ((LSt 124), (KInc (KIf CPe (KGoto (LEofN 124) KNil) KNil KNil)));
  (* machine.go:4030 stCase124 *) ((LCase 124), (KIf (CByte OEq 32) (KGoto (LTr 31) KNil) KNil (KIf (CAnd (CByte OGe 33) (CByte OLe 126)) (KGoto (LSt 125) KNil) KNil (KGoto (LTr 30) KNil))));
  (* machine.go:4038 st125 *) ((LSt 125), (KInc (KIf CPe (KGoto (LEofN 125) KNil) KNil KNil)));
  (* machine.go:4042 stCase125 *) ((LCase 125), (KIf (CByte OEq 32) (KGoto (LTr 31) KNil) KNil (KGoto (LTr 30) KNil)));
  (* machine.go:4047 st126 *) ((LSt 126), (KInc (KIf CPe (KGoto (LEofN 126) KNil) KNil KNil)));
  (* machine.go:4051 stCase126 *) ((LCase 126), (KIf (CByte OEq 32) (KGoto (LTr 26) KNil) KNil (KIf (CAnd (CByte OGe 33) (CByte OLe 126)) (KGoto (LSt 127) KNil) KNil (KGoto (LTr 24) KNil))));
  (* machine.go:4059 st127 *) ((LSt 127), (KInc (KIf CPe (KGoto (LEofN 127) KNil) KNil KNil)));
  (* machine.go:4063 stCase127 *) ((LCase 127), (KIf (CByte OEq 32) (KGoto (LTr 26) KNil) KNil (KIf (CAnd (CByte OGe 33) (CByte OLe 126)) (KGoto (LSt 128) KNil) KNil (KGoto (LTr 24) KNil))));
  (* machine.go:4071 st128 *) ((LSt 128), (KInc (KIf CPe (KGoto (LEofN 128) KNil) KNil KNil)));
  (* machine.go:4075 stCase128 *) ((LCase 128), (KIf (CByte OEq 32) (KGoto (LTr 26) KNil) KNil (KIf (CAnd (CByte OGe 33) (CByte OLe 126)) (KGoto (LSt 129) KNil) KNil (KGoto (LTr 24) KNil))));
  (* machine.go:4083 st129 *) ((LSt 129), (KInc (KIf CPe (KGoto (LEofN 129) KNil) KNil KNil)));
  (* machine.go:4087 stCase129 *) ((LCase 129), (KIf (CByte OEq 32) (KGoto (LTr 26) KNil) KNil (KIf (CAnd (CByte OGe 33) (CByte OLe 126)) (KGoto (LSt 130) KNil) KNil (KGoto (LTr 24) KNil))));
  (* machine.go:4095 st130 *) ((LSt 130), (KInc (KIf CPe (KGoto (LEofN 130) KNil) KNil KNil)));
  (* machine.go:4099 stCase130 *) ((LCase 130), (KIf (CByte OEq 32) (KGoto (LTr 26) KNil) KNil (KIf (CAnd (CByte OGe 33) (CByte OLe 126)) (KGoto (LSt 131) KNil) KNil (KGoto (LTr 24) KNil))));
  (* machine.go:4107 st131 *) ((LSt 131), (KInc (KIf CPe (KGoto (LEofN 131) KNil) KNil KNil)));
  (* machine.go:4111 stCase131 *) ((LCase 131), (KIf (CByte OEq 32) (KGoto (LTr 26) KNil) KNil (KIf (CAnd (CByte OGe 33) (CByte OLe 126)) (KGoto (LSt 132) KNil) KNil (KGoto (LTr 24) KNil))));
  (* machine.go:4119 st132 *) ((LSt 132), (KInc (KIf CPe (KGoto (LEofN 132) KNil) KNil KNil)));
  (* machine.go:4123 stCase132 *) ((LCase 132), (KIf (CByte OEq 32) (KGoto (LTr 26) KNil) KNil (KIf (CAnd (CByte OGe 33) (CByte OLe 126)) (KGoto (LSt 133) KNil) KNil (KGoto (LTr 24) KNil))));
  (* machine.go:4131 st133 *) ((LSt 133), (KInc (KIf CPe (KGoto (LEofN 133) KNil) KNil KNil)));
  (* machine.go:4135 stCase133 *) ((LCase 133), (KIf (CByte OEq 32) (KGoto (LTr 26) KNil) KNil (KIf (CAnd (CByte OGe 33) (CByte OLe 126)) (KGoto (LSt 134) KNil) KNil (KGoto (LTr 24) KNil))));
  (* machine.go:4143 st134 *) ((LSt 134), (KInc (KIf CPe (KGoto (LEofN 134) KNil) KNil KNil)));
  (* machine.go:4147 stCase134 *) ((LCase 134), (KIf (CByte OEq 32) (KGoto (LTr 26) KNil) KNil (KIf (CAnd (CByte OGe 33) (CByte OLe 126)) (KGoto (LSt 135) KNil) KNil (KGoto (LTr 24) KNil))));
  (* machine.go:4155 st135 *) ((LSt 135), (KInc (KIf CPe (KGoto (LEofN 135) KNil) KNil KNil)));
  (* machine.go:4159 stCase135 *) ((LCase 135), (KIf (CByte OEq 32) (KGoto (LTr 26) KNil) KNil (KIf (CAnd (CByte OGe 33) (CByte OLe 126)) (KGoto (LSt 136) KNil) KNil (KGoto (LTr 24) KNil))));
  (* machine.go:4167 st136 *) ((LSt 136), (KInc (KIf CPe (KGoto (LEofN 136) KNil) KNil KNil)));
  (* machine.go:4171 stCase136 *) ((LCase 136), (KIf (CByte OEq 32) (KGoto (LTr 26) KNil) KNil (KIf (CAnd (CByte OGe 33) (CByte OLe 126)) (KGoto (LSt 137) KNil) KNil (KGoto (LTr 24) KNil))));
  (* machine.go:4179 st137 *) ((LSt 137), (KInc (KIf CPe (KGoto (LEofN 137) KNil) KNil KNil)));
  (* machine.go:4183 stCase137 *) ((LCase 137), (KIf (CByte OEq 32) (KGoto (LTr 26) KNil) KNil (KIf (CAnd (CByte OGe 33) (CByte OLe 126)) (KGoto (LSt 138) KNil) KNil (KGoto (LTr 24) KNil))));
  (* machine.go:4191 st138 *) ((LSt 138), (KInc (KIf CPe (KGoto (LEofN 138) KNil) KNil KNil)));
  (* machine.go:4195 stCase138 *) ((LCase 138), (KIf (CByte OEq 32) (KGoto (LTr 26) KNil) KNil (KIf (CAnd (CByte OGe 33) (CByte OLe 126)) (KGoto (LSt 139) KNil) KNil (KGoto (LTr 24) KNil))));
  (* machine.go:4203 st139 *) ((LSt 139), (KInc (KIf CPe (KGoto (LEofN 139) KNil) KNil KNil)));
  (* machine.go:4207 stCase139 *) ((LCase 139), (KIf (CByte OEq 32) (KGoto (LTr 26) KNil) KNil (KIf (CAnd (CByte OGe 33) (CByte OLe 126)) (KGoto (LSt 140) KNil) KNil (KGoto (LTr 24) KNil))));
  (* machine.go:4215 st140 *) ((LSt 140), (KInc (KIf CPe (KGoto (LEofN 140) KNil) KNil KNil)));
  (* machine.go:4219 stCase140 *) ((LCase 140), (KIf (CByte OEq 32) (KGoto (LTr 26) KNil) KNil (KIf (CAnd (CByte OGe 33) (CByte OLe 126)) (KGoto (LSt 141) KNil) KNil (KGoto (LTr 24) KNil))));
  (* machine.go:4227 st141 *) ((LSt 141), (KInc (KIf CPe (KGoto (LEofN 141) KNil) KNil KNil)));
  (* machine.go:4231 stCase141 *) ((LCase 141), (KIf (CByte OEq 32) (KGoto (LTr 26) KNil) KNil (KIf (CAnd (CByte OGe 33) (CByte OLe 126)) (KGoto (LSt 142) KNil) KNil (KGoto (LTr 24) KNil))));
  (* machine.go:4239 st142 *) ((LSt 142), (KInc (KIf CPe (KGoto (LEofN 142) KNil) KNil KNil)));
  (* machine.go:4243 stCase142 *) ((LCase 142), (KIf (CByte OEq 32) (KGoto (LTr 26) KNil) KNil (KIf (CAnd (CByte OGe 33) (CByte OLe 126)) (KGoto (LSt 143) KNil) KNil (KGoto (LTr 24) KNil))));
  (* machine.go:4251 st143 *) ((LSt 143), (KInc (KIf CPe (KGoto (LEofN 143) KNil) KNil KNil)));
  (* machine.go:4255 stCase143 *) ((LCase 143), (KIf (CByte OEq 32) (KGoto (LTr 26) KNil) KNil (KIf (CAnd (CByte OGe 33) (CByte OLe 126)) (KGoto (LSt 144) KNil) KNil (KGoto (LTr 24) KNil))));
  (* machine.go:4263 st144 *) ((LSt 144), (KInc (KIf CPe (KGoto (LEofN 144) KNil) KNil KNil)));
  (* machine.go:4267 stCase144 *) ((LCase 144), (KIf (CByte OEq 32) (KGoto (LTr 26) KNil) KNil (KIf (CAnd (CByte OGe 33) (CByte OLe 126)) (KGoto (LSt 145) KNil) KNil (KGoto (LTr 24) KNil))));
  (* machine.go:4275 st145 *) ((LSt 145), (KInc (KIf CPe (KGoto (LEofN 145) KNil) KNil KNil)));
  (* machine.go:4279 stCase145 *) ((LCase 145), (KIf (CByte OEq 32) (KGoto (LTr 26) KNil) KNil (KIf (CAnd (CByte OGe 33) (CByte OLe 126)) (KGoto (LSt 146) KNil) KNil (KGoto (LTr 24) KNil))));
  (* machine.go:4287 st146 *) ((LSt 146), (KInc (KIf CPe (KGoto (LEofN 146) KNil) KNil KNil)));
  (* machine.go:4291 stCase146 *) ((LCase 146), (KIf (CByte OEq 32) (KGoto (LTr 26) KNil) KNil (KIf (CAnd (CByte OGe 33) (CByte OLe 126)) (KGoto (LSt 147) KNil) KNil (KGoto (LTr 24) KNil))));
  (* machine.go:4299 st147 *) ((LSt 147), (KInc (KIf CPe (KGoto (LEofN 147) KNil) KNil KNil)));
  (* machine.go:4303 stCase147 *) ((LCase 147), (KIf (CByte OEq 32) (KGoto (LTr 26) KNil) KNil (KIf (CAnd (CByte OGe 33) (CByte OLe 126)) (KGoto (LSt 148) KNil) KNil (KGoto (LTr 24) KNil))));
  (* machine.go:4311 st148 *) ((LSt 148), (KInc (KIf CPe (KGoto (LEofN 148) KNil) KNil KNil)));
  (* machine.go:4315 stCase148 *) ((LCase 148), (KIf (CByte OEq 32) (KGoto (LTr 26) KNil) KNil (KIf (CAnd (CByte OGe 33) (CByte OLe 126)) (KGoto (LSt 149) KNil) KNil (KGoto (LTr 24) KNil))));
  (* machine.go:4323 st149 *) ((LSt 149), (KInc (KIf CPe (KGoto (LEofN 149) KNil) KNil KNil)));
  (* machine.go:4327 stCase149 *) ((LCase 149), (KIf (CByte OEq 32) (KGoto (LTr 26) KNil) KNil (KIf (CAnd (CByte OGe 33) (CByte OLe 126)) (KGoto (LSt 150) KNil) KNil (KGoto (LTr 24) KNil))));
  (* machine.go:4335 st150 *) ((LSt 150), (KInc (KIf CPe (KGoto (LEofN 150) KNil) KNil KNil)));
  (* machine.go:4339 stCase150 *) ((LCase 150), (KIf (CByte OEq 32) (KGoto (LTr 26) KNil) KNil (KIf (CAnd (CByte OGe 33) (CByte OLe 126)) (KGoto (LSt 151) KNil) KNil (KGoto (LTr 24) KNil))));
  (* machine.go:4347 st151 *) ((LSt 151), (KInc (KIf CPe (KGoto (LEofN 151) KNil) KNil KNil)));
  (* machine.go:4351 stCase151 *) ((LCase 151), (KIf (CByte OEq 32) (KGoto (LTr 26) KNil) KNil (KIf (CAnd (CByte OGe 33) (CByte OLe 126)) (KGoto (LSt 152) KNil) KNil (KGoto (LTr 24) KNil))))
].

(* /repo/rfc5424/machine.go *)
Definition prog5424_6 : list (label * code act cnd) := [
  (* machine.go:4359 st152 *) ((LSt 152), (KInc (KIf CPe (KGoto (LEofN 152) KNil) KNil KNil)));
  (* machine.go:4363 stCase152 *) ((LCase 152), (KIf (CByte OEq 32) (KGoto (LTr 26) KNil) KNil (KIf (CAnd (CByte OGe 33) (CByte OLe 126)) (KGoto (LSt 153) KNil) KNil (KGoto (LTr 24) KNil))));
  (* machine.go:4371 st153 *) ((LSt 153), (KInc (KIf CPe (KGoto (LEofN 153) KNil) KNil KNil)));
  (* machine.go:4375 stCase153 *) ((LCase 153), (KIf (CByte OEq 32) (KGoto (LTr 26) KNil) KNil (KIf (CAnd (CByte OGe 33) (CByte OLe 126)) (KGoto (LSt 154) KNil) KNil (KGoto (LTr 24) KNil))));
  (* machine.go:4383 st154 *) ((LSt 154), (KInc (KIf CPe (KGoto (LEofN 154) KNil) KNil KNil)));
  (* machine.go:4387 stCase154 *) ((LCase 154), (KIf (CByte OEq 32) (KGoto (LTr 26) KNil) KNil (KIf (CAnd (CByte OGe 33) (CByte OLe 126)) (KGoto (LSt 155) KNil) KNil (KGoto (LTr 24) KNil))));
  (* machine.go:4395 st155 *) ((LSt 155), (KInc (KIf CPe (KGoto (LEofN 155) KNil) KNil KNil)));
  (* machine.go:4399 stCase155 *) ((LCase 155), (KIf (CByte OEq 32) (KGoto (LTr 26) KNil) KNil (KIf (CAnd (CByte OGe 33) (CByte OLe 126)) (KGoto (LSt 156) KNil) KNil (KGoto (LTr 24) KNil))));
  (* machine.go:4407 st156 *) ((LSt 156), (KInc (KIf CPe (KGoto (LEofN 156) KNil) KNil KNil)));
  (* machine.go:4411 stCase156 *) ((LCase 156), (KIf (CByte OEq 32) (KGoto (LTr 26) KNil) KNil (KIf (CAnd (CByte OGe 33) (CByte OLe 126)) (KGoto (LSt 157) KNil) KNil (KGoto (LTr 24) KNil))));
  (* machine.go:4419 st157 *) ((LSt 157), (KInc (KIf CPe (KGoto (LEofN 157) KNil) KNil KNil)));
  (* machine.go:4423 stCase157 *) ((LCase 157), (KIf (CByte OEq 32) (KGoto (LTr 26) KNil) KNil (KIf (CAnd (CByte OGe 33) (CByte OLe 126)) (KGoto (LSt 158) KNil) KNil (KGoto (LTr 24) KNil))));
  (* machine.go:4431 st158 *) ((LSt 158), (KInc (KIf CPe (KGoto (LEofN 158) KNil) KNil KNil)));
  (* machine.go:4435 stCase158 *) ((LCase 158), (KIf (CByte OEq 32) (KGoto (LTr 26) KNil) KNil (KIf (CAnd (CByte OGe 33) (CByte OLe 126)) (KGoto (LSt 159) KNil) KNil (KGoto (LTr 24) KNil))));
  (* machine.go:4443 st159 *) ((LSt 159), (KInc (KIf CPe (KGoto (LEofN 159) KNil) KNil KNil)));
  (* machine.go:4447 stCase159 *) ((LCase 159), (KIf (CByte OEq 32) (KGoto (LTr 26) KNil) KNil (KIf (CAnd (CByte OGe 33) (CByte OLe 126)) (KGoto (LSt 160) KNil) KNil (KGoto (LTr 24) KNil))));
  (* machine.go:4455 st160 *) ((LSt 160), (KInc (KIf CPe (KGoto (LEofN 160) KNil) KNil KNil)));
  (* machine.go:4459 stCase160 *) ((LCase 160), (KIf (CByte OEq 32) (KGoto (LTr 26) KNil) KNil (KIf (CAnd (CByte OGe 33) (CByte OLe 126)) (KGoto (LSt 161) KNil) KNil (KGoto (LTr 24) KNil))));
  (* machine.go:4467 st161 *) ((LSt 161), (KInc (KIf CPe (KGoto (LEofN 161) KNil) KNil KNil)));
  (* machine.go:4471 stCase161 *) ((LCase 161), (KIf (CByte OEq 32) (KGoto (LTr 26) KNil) KNil (KIf (CAnd (CByte OGe 33) (CByte OLe 126)) (KGoto (LSt 162) KNil) KNil (KGoto (LTr 24) KNil))));
  (* machine.go:4479 st162 *) ((LSt 162), (KInc (KIf CPe (KGoto (LEofN 162) KNil) KNil KNil)));
  (* machine.go:4483 stCase162 *) ((LCase 162), (KIf (CByte OEq 32) (KGoto (LTr 26) KNil) KNil (KIf (CAnd (CByte OGe 33) (CByte OLe 126)) (KGoto (LSt 163) KNil) KNil (KGoto (LTr 24) KNil))));
  (* machine.go:4491 st163 *) ((LSt 163), (KInc (KIf CPe (KGoto (LEofN 163) KNil) KNil KNil)));
  (* machine.go:4495 stCase163 *) ((LCase 163), (KIf (CByte OEq 32) (KGoto (LTr 26) KNil) KNil (KIf (CAnd (CByte OGe 33) (CByte OLe 126)) (KGoto (LSt 164) KNil) KNil (KGoto (LTr 24) KNil))));
  (* machine.go:4503 st164 *) ((LSt 164), (KInc (KIf CPe (KGoto (LEofN 164) KNil) KNil KNil)));
  (* machine.go:4507 stCase164 *) ((LCase 164), (KIf (CByte OEq 32) (KGoto (LTr 26) KNil) KNil (KIf (CAnd (CByte OGe 33) (CByte OLe 126)) (KGoto (LSt 165) KNil) KNil (KGoto (LTr 24) KNil))));
  (* machine.go:4515 st165 *) ((LSt 165), (KInc (KIf CPe (KGoto (LEofN 165) KNil) KNil KNil)));
  (* machine.go:4519 stCase165 *) ((LCase 165), (KIf (CByte OEq 32) (KGoto (LTr 26) KNil) KNil (KIf (CAnd (CByte OGe 33) (CByte OLe 126)) (KGoto (LSt 166) KNil) KNil (KGoto (LTr 24) KNil))));
  (* machine.go:4527 st166 *) ((LSt 166), (KInc (KIf CPe (KGoto (LEofN 166) KNil) KNil KNil)));
  (* machine.go:4531 stCase166 *) ((LCase 166), (KIf (CByte OEq 32) (KGoto (LTr 26) KNil) KNil (KIf (CAnd (CByte OGe 33) (CByte OLe 126)) (KGoto (LSt 167) KNil) KNil (KGoto (LTr 24) KNil))));
  (* machine.go:4539 st167 *) ((LSt 167), (KInc (KIf CPe (KGoto (LEofN 167) KNil) KNil KNil)));
  (* machine.go:4543 stCase167 *) ((LCase 167), (KIf (CByte OEq 32) (KGoto (LTr 26) KNil) KNil (KIf (CAnd (CByte OGe 33) (CByte OLe 126)) (KGoto (LSt 168) KNil) KNil (KGoto (LTr 24) KNil))));
  (* machine.go:4551 st168 *) ((LSt 168), (KInc (KIf CPe (KGoto (LEofN 168) KNil) KNil KNil)));
  (* machine.go:4555 stCase168 *) ((LCase 168), (KIf (CByte OEq 32) (KGoto (LTr 26) KNil) KNil (KIf (CAnd (CByte OGe 33) (CByte OLe 126)) (KGoto (LSt 169) KNil) KNil (KGoto (LTr 24) KNil))));
  (* machine.go:4563 st169 *) ((LSt 169), (KInc (KIf CPe (KGoto (LEofN 169) KNil) KNil KNil)));
  (* machine.go:4567 stCase169 *) ((LCase 169), (KIf (CByte OEq 32) (KGoto (LTr 26) KNil) KNil (KIf (CAnd (CByte OGe 33) (CByte OLe 126)) (KGoto (LSt 170) KNil) KNil (KGoto (LTr 24) KNil))));
  (* machine.go:4575 st170 *) ((LSt 170), (KInc (KIf CPe (KGoto (LEofN 170) KNil) KNil KNil)));
  (* machine.go:4579 stCase170 *) ((LCase 170), (KIf (CByte OEq 32) (KGoto (LTr 26) KNil) KNil (KIf (CAnd (CByte OGe 33) (CByte OLe 126)) (KGoto (LSt 171) KNil) KNil (KGoto (LTr 24) KNil))));
  (* machine.go:4587 st171 *) ((LSt 171), (KInc (KIf CPe (KGoto (LEofN 171) KNil) KNil KNil)));
  (* machine.go:4591 stCase171 *) ((LCase 171), (KIf (CByte OEq 32) (KGoto (LTr 26) KNil) KNil (KIf (CAnd (CByte OGe 33) (CByte OLe 126)) (KGoto (LSt 172) KNil) KNil (KGoto (LTr 24) KNil))));
  (* machine.go:4599 st172 *) ((LSt 172), (KInc (KIf CPe (KGoto (LEofN 172) KNil) KNil KNil)));
  (* machine.go:4603 stCase172 *) ((LCase 172), (KIf (CByte OEq 32) (KGoto (LTr 26) KNil) KNil (KIf (CAnd (CByte OGe 33) (CByte OLe 126)) (KGoto (LSt 173) KNil) KNil (KGoto (LTr 24) KNil))));
  (* machine.go:4611 st173 *) ((LSt 173), (KInc (KIf CPe (KGoto (LEofN 173) KNil) KNil KNil)));
  (* machine.go:4615 stCase173 *) ((LCase 173), (KIf (CByte OEq 32) (KGoto (LTr 26) KNil) KNil (KIf (CAnd (CByte OGe 33) (CByte OLe 126)) (KGoto (LSt 174) KNil) KNil (KGoto (LTr 24) KNil))));
  (* machine.go:4623 st174 *) ((LSt 174), (KInc (KIf CPe (KGoto (LEofN 174) KNil) KNil KNil)));
  (* machine.go:4627 stCase174 *) ((LCase 174), (KIf (CByte OEq 32) (KGoto (LTr 26) KNil) KNil (KIf (CAnd (CByte OGe 33) (CByte OLe 126)) (KGoto (LSt 175) KNil) KNil (KGoto (LTr 24) KNil))));
  (* machine.go:4635 st175 *) ((LSt 175), (KInc (KIf CPe (KGoto (LEofN 175) KNil) KNil KNil)));
  (* machine.go:4639 stCase175 *) ((LCase 175), (KIf (CByte OEq 32) (KGoto (LTr 26) KNil) KNil (KIf (CAnd (CByte OGe 33) (CByte OLe 126)) (KGoto (LSt 176) KNil) KNil (KGoto (LTr 24) KNil))));
  (* machine.go:4647 st176 *) ((LSt 176), (KInc (KIf CPe (KGoto (LEofN 176) KNil) KNil KNil)));
  (* machine.go:4651 stCase176 *) ((LCase 176), (KIf (CByte OEq 32) (KGoto (LTr 26) KNil) KNil (KIf (CAnd (CByte OGe 33) (CByte OLe 126)) (KGoto (LSt 177) KNil) KNil (KGoto (LTr 24) KNil))));
  (* machine.go:4659 st177 *) ((LSt 177), (KInc (KIf CPe (KGoto (LEofN 177) KNil) KNil KNil)));
  (* machine.go:4663 stCase177 *) ((LCase 177), (KIf (CByte OEq 32) (KGoto (LTr 26) KNil) KNil (KIf (CAnd (CByte OGe 33) (CByte OLe 126)) (KGoto (LSt 178) KNil) KNil (KGoto (LTr 24) KNil))));
  (* machine.go:4671 st178 *) ((LSt 178), (KInc (KIf CPe (KGoto (LEofN 178) KNil) KNil KNil)));
  (* machine.go:4675 stCase178 *) ((LCase 178), (KIf (CByte OEq 32) (KGoto (LTr 26) KNil) KNil (KIf (CAnd (CByte OGe 33) (CByte OLe 126)) (KGoto (LSt 179) KNil) KNil (KGoto (LTr 24) KNil))));
  (* machine.go:4683 st179 *) ((LSt 179), (KInc (KIf CPe (KGoto (LEofN 179) KNil) KNil KNil)));
  (* machine.go:4687 stCase179 *) ((LCase 179), (KIf (CByte OEq 32) (KGoto (LTr 26) KNil) KNil (KIf (CAnd (CByte OGe 33) (CByte OLe 126)) (KGoto (LSt 180) KNil) KNil (KGoto (LTr 24) KNil))));
  (* machine.go:4695 st180 *) ((LSt 180), (KInc (KIf CPe (KGoto (LEofN 180) KNil) KNil KNil)));
  (* machine.go:4699 stCase180 *) ((LCase 180), (KIf (CByte OEq 32) (KGoto (LTr 26) KNil) KNil (KIf (CAnd (CByte OGe 33) (CByte OLe 126)) (KGoto (LSt 181) KNil) KNil (KGoto (LTr 24) KNil))));
  (* machine.go:4707 st181 *) ((LSt 181), (KInc (KIf CPe (KGoto (LEofN 181) KNil) KNil KNil)));
  (* machine.go:4711 stCase181 *) ((LCase 181), (KIf (CByte OEq 32) (KGoto (LTr 26) KNil) KNil (KIf (CAnd (CByte OGe 33) (CByte OLe 126)) (KGoto (LSt 182) KNil) KNil (KGoto (LTr 24) KNil))))
].

(* /repo/rfc5424/machine.go *)
Definition prog5424_7 : list (label * code act cnd) := [
  (* machine.go:4719 st182 *) ((LSt 182), (KInc (KIf CPe (KGoto (LEofN 182) KNil) KNil KNil)));
  (* machine.go:4723 stCase182 *) ((LCase 182), (KIf (CByte OEq 32) (KGoto (LTr 26) KNil) KNil (KIf (CAnd (CByte OGe 33) (CByte OLe 126)) (KGoto (LSt 183) KNil) KNil (KGoto (LTr 24) KNil))));
  (* machine.go:4731 st183 *) ((LSt 183), (KInc (KIf CPe (KGoto (LEofN 183) KNil) KNil KNil)));
  (* machine.go:4735 stCase183 *) ((LCase 183), (KIf (CByte OEq 32) (KGoto (LTr 26) KNil) KNil (KIf (CAnd (CByte OGe 33) (CByte OLe 126)) (KGoto (LSt 184) KNil) KNil (KGoto (LTr 24) KNil))));
  (* machine.go:4743 st184 *) ((LSt 184), (KInc (KIf CPe (KGoto (LEofN 184) KNil) KNil KNil)));
  (* machine.go:4747 stCase184 *) ((LCase 184), (KIf (CByte OEq 32) (KGoto (LTr 26) KNil) KNil (KIf (CAnd (CByte OGe 33) (CByte OLe 126)) (KGoto (LSt 185) KNil) KNil (KGoto (LTr 24) KNil))));
  (* machine.go:4755 st185 *) ((LSt 185), (KInc (KIf CPe (KGoto (LEofN 185) KNil) KNil KNil)));
  (* machine.go:4759 stCase185 *) ((LCase 185), (KIf (CByte OEq 32) (KGoto (LTr 26) KNil) KNil (KIf (CAnd (CByte OGe 33) (CByte OLe 126)) (KGoto (LSt 186) KNil) KNil (KGoto (LTr 24) KNil))));
  (* machine.go:4767 st186 *) ((LSt 186), (KInc (KIf CPe (KGoto (LEofN 186) KNil) KNil KNil)));
  (* machine.go:4771 stCase186 *) ((LCase 186), (KIf (CByte OEq 32) (KGoto (LTr 26) KNil) KNil (KIf (CAnd (CByte OGe 33) (CByte OLe 126)) (KGoto (LSt 187) KNil) KNil (KGoto (LTr 24) KNil))));
  (* machine.go:4779 st187 *) ((LSt 187), (KInc (KIf CPe (KGoto (LEofN 187) KNil) KNil KNil)));
  (* machine.go:4783 stCase187 *) ((LCase 187), (KIf (CByte OEq 32) (KGoto (LTr 26) KNil) KNil (KIf (CAnd (CByte OGe 33) (CByte OLe 126)) (KGoto (LSt 188) KNil) KNil (KGoto (LTr 24) KNil))));
  (* machine.go:4791 st188 *) ((LSt 188), (KInc (KIf CPe (KGoto (LEofN 188) KNil) KNil KNil)));
  (* machine.go:4795 stCase188 *) ((LCase 188), (KIf (CByte OEq 32) (KGoto (LTr 26) KNil) KNil (KIf (CAnd (CByte OGe 33) (CByte OLe 126)) (KGoto (LSt 189) KNil) KNil (KGoto (LTr 24) KNil))));
  (* machine.go:4803 st189 *) ((LSt 189), (KInc (KIf CPe (KGoto (LEofN 189) KNil) KNil KNil)));
  (* machine.go:4807 stCase189 *) ((LCase 189), (KIf (CByte OEq 32) (KGoto (LTr 26) KNil) KNil (KIf (CAnd (CByte OGe 33) (CByte OLe 126)) (KGoto (LSt 190) KNil) KNil (KGoto (LTr 24) KNil))));
  (* machine.go:4815 st190 *) ((LSt 190), (KInc (KIf CPe (KGoto (LEofN 190) KNil) KNil KNil)));
  (* machine.go:4819 stCase190 *) ((LCase 190), (KIf (CByte OEq 32) (KGoto (LTr 26) KNil) KNil (KIf (CAnd (CByte OGe 33) (CByte OLe 126)) (KGoto (LSt 191) KNil) KNil (KGoto (LTr 24) KNil))));
  (* machine.go:4827 st191 *) ((LSt 191), (KInc (KIf CPe (KGoto (LEofN 191) KNil) KNil KNil)));
  (* machine.go:4831 stCase191 *) ((LCase 191), (KIf (CByte OEq 32) (KGoto (LTr 26) KNil) KNil (KIf (CAnd (CByte OGe 33) (CByte OLe 126)) (KGoto (LSt 192) KNil) KNil (KGoto (LTr 24) KNil))));
  (* machine.go:4839 st192 *) ((LSt 192), (KInc (KIf CPe (KGoto (LEofN 192) KNil) KNil KNil)));
  (* machine.go:4843 stCase192 *) ((LCase 192), (KIf (CByte OEq 32) (KGoto (LTr 26) KNil) KNil (KIf (CAnd (CByte OGe 33) (CByte OLe 126)) (KGoto (LSt 193) KNil) KNil (KGoto (LTr 24) KNil))));
  (* machine.go:4851 st193 *) ((LSt 193), (KInc (KIf CPe (KGoto (LEofN 193) KNil) KNil KNil)));
  (* machine.go:4855 stCase193 *) ((LCase 193), (KIf (CByte OEq 32) (KGoto (LTr 26) KNil) KNil (KIf (CAnd (CByte OGe 33) (CByte OLe 126)) (KGoto (LSt 194) KNil) KNil (KGoto (LTr 24) KNil))));
  (* machine.go:4863 st194 *) ((LSt 194), (KInc (KIf CPe (KGoto (LEofN 194) KNil) KNil KNil)));
  (* machine.go:4867 stCase194 *) ((LCase 194), (KIf (CByte OEq 32) (KGoto (LTr 26) KNil) KNil (KIf (CAnd (CByte OGe 33) (CByte OLe 126)) (KGoto (LSt 195) KNil) KNil (KGoto (LTr 24) KNil))));
  (* machine.go:4875 st195 *) ((LSt 195), (KInc (KIf CPe (KGoto (LEofN 195) KNil) KNil KNil)));
  (* machine.go:4879 stCase195 *) ((LCase 195), (KIf (CByte OEq 32) (KGoto (LTr 26) KNil) KNil (KIf (CAnd (CByte OGe 33) (CByte OLe 126)) (KGoto (LSt 196) KNil) KNil (KGoto (LTr 24) KNil))));
  (* machine.go:4887 st196 *) ((LSt 196), (KInc (KIf CPe (KGoto (LEofN 196) KNil) KNil KNil)));
  (* machine.go:4891 stCase196 *) ((LCase 196), (KIf (CByte OEq 32) (KGoto (LTr 26) KNil) KNil (KIf (CAnd (CByte OGe 33) (CByte OLe 126)) (KGoto (LSt 197) KNil) KNil (KGoto (LTr 24) KNil))));
  (* machine.go:4899 st197 *) ((LSt 197), (KInc (KIf CPe (KGoto (LEofN 197) KNil) KNil KNil)));
  (* machine.go:4903 stCase197 *) ((LCase 197), (KIf (CByte OEq 32) (KGoto (LTr 26) KNil) KNil (KIf (CAnd (CByte OGe 33) (CByte OLe 126)) (KGoto (LSt 198) KNil) KNil (KGoto (LTr 24) KNil))));
  (* machine.go:4911 st198 *) ((LSt 198), (KInc (KIf CPe (KGoto (LEofN 198) KNil) KNil KNil)));
  (* machine.go:4915 stCase198 *) ((LCase 198), (KIf (CByte OEq 32) (KGoto (LTr 26) KNil) KNil (KIf (CAnd (CByte OGe 33) (CByte OLe 126)) (KGoto (LSt 199) KNil) KNil (KGoto (LTr 24) KNil))));
  (* machine.go:4923 st199 *) ((LSt 199), (KInc (KIf CPe (KGoto (LEofN 199) KNil) KNil KNil)));
  (* machine.go:4927 stCase199 *) ((LCase 199), (KIf (CByte OEq 32) (KGoto (LTr 26) KNil) KNil (KIf (CAnd (CByte OGe 33) (CByte OLe 126)) (KGoto (LSt 200) KNil) KNil (KGoto (LTr 24) KNil))));
  (* machine.go:4935 st200 *) ((LSt 200), (KInc (KIf CPe (KGoto (LEofN 200) KNil) KNil KNil)));
  (* machine.go:4939 stCase200 *) ((LCase 200), (KIf (CByte OEq 32) (KGoto (LTr 26) KNil) KNil (KIf (CAnd (CByte OGe 33) (CByte OLe 126)) (KGoto (LSt 201) KNil) KNil (KGoto (LTr 24) KNil))));
  (* machine.go:4947 st201 *) ((LSt 201), (KInc (KIf CPe (KGoto (LEofN 201) KNil) KNil KNil)));
  (* machine.go:4951 stCase201 *) ((LCase 201), (KIf (CByte OEq 32) (KGoto (LTr 26) KNil) KNil (KIf (CAnd (CByte OGe 33) (CByte OLe 126)) (KGoto (LSt 202) KNil) KNil (KGoto (LTr 24) KNil))));
  (* machine.go:4959 st202 *) ((LSt 202), (KInc (KIf CPe (KGoto (LEofN 202) KNil) KNil KNil)));
  (* machine.go:4963 stCase202 *) ((LCase 202), (KIf (CByte OEq 32) (KGoto (LTr 26) KNil) KNil (KIf (CAnd (CByte OGe 33) (CByte OLe 126)) (KGoto (LSt 203) KNil) KNil (KGoto (LTr 24) KNil))));
  (* machine.go:4971 st203 *) ((LSt 203), (KInc (KIf CPe (KGoto (LEofN 203) KNil) KNil KNil)));
  (* machine.go:4975 stCase203 *) ((LCase 203), (KIf (CByte OEq 32) (KGoto (LTr 26) KNil) KNil (KIf (CAnd (CByte OGe 33) (CByte OLe 126)) (KGoto (LSt 204) KNil) KNil (KGoto (LTr 24) KNil))));
  (* machine.go:4983 st204 *) ((LSt 204), (KInc (KIf CPe (KGoto (LEofN 204) KNil) KNil KNil)));
  (* machine.go:4987 stCase204 *) ((LCase 204), (KIf (CByte OEq 32) (KGoto (LTr 26) KNil) KNil (KIf (CAnd (CByte OGe 33) (CByte OLe 126)) (KGoto (LSt 205) KNil) KNil (KGoto (LTr 24) KNil))));
  (* machine.go:4995 st205 *) ((LSt 205), (KInc (KIf CPe (KGoto (LEofN 205) KNil) KNil KNil)));
  (* machine.go:4999 stCase205 *) ((LCase 205), (KIf (CByte OEq 32) (KGoto (LTr 26) KNil) KNil (KIf (CAnd (CByte OGe 33) (CByte OLe 126)) (KGoto (LSt 206) KNil) KNil (KGoto (LTr 24) KNil))));
  (* machine.go:5007 st206 *) ((LSt 206), (KInc (KIf CPe (KGoto (LEofN 206) KNil) KNil KNil)));
  (* machine.go:5011 stCase206 *) ((LCase 206), (KIf (CByte OEq 32) (KGoto (LTr 26) KNil) KNil (KIf (CAnd (CByte OGe 33) (CByte OLe 126)) (KGoto (LSt 207) KNil) KNil (KGoto (LTr 24) KNil))));
  (* machine.go:5019 st207 *) ((LSt 207), (KInc (KIf CPe (KGoto (LEofN 207) KNil) KNil KNil)));
  (* machine.go:5023 stCase207 *) ((LCase 207), (KIf (CByte OEq 32) (KGoto (LTr 26) KNil) KNil (KIf (CAnd (CByte OGe 33) (CByte OLe 126)) (KGoto (LSt 208) KNil) KNil (KGoto (LTr 24) KNil))));
  (* machine.go:5031 st208 *) ((LSt 208), (KInc (KIf CPe (KGoto (LEofN 208) KNil) KNil KNil)));
  (* machine.go:5035 stCase208 *) ((LCase 208), (KIf (CByte OEq 32) (KGoto (LTr 26) KNil) KNil (KIf (CAnd (CByte OGe 33) (CByte OLe 126)) (KGoto (LSt 209) KNil) KNil (KGoto (LTr 24) KNil))));
  (* machine.go:5043 st209 *) ((LSt 209), (KInc (KIf CPe (KGoto (LEofN 209) KNil) KNil KNil)));
  (* machine.go:5047 stCase209 *) ((LCase 209), (KIf (CByte OEq 32) (KGoto (LTr 26) KNil) KNil (KIf (CAnd (CByte OGe 33) (CByte OLe 126)) (KGoto (LSt 210) KNil) KNil (KGoto (LTr 24) KNil))));
  (* machine.go:5055 st210 *) ((LSt 210), (KInc (KIf CPe (KGoto (LEofN 210) KNil) KNil KNil)));
  (* machine.go:5059 stCase210 *) ((LCase 210), (KIf (CByte OEq 32) (KGoto (LTr 26) KNil) KNil (KIf (CAnd (CByte OGe 33) (CByte OLe 126)) (KGoto (LSt 211) KNil) KNil (KGoto (LTr 24) KNil))));
  (* machine.go:5067 st211 *) ((LSt 211), (KInc (KIf CPe (KGoto (LEofN 211) KNil) KNil KNil)));
  (* machine.go:5071 stCase211 *) ((LCase 211), (KIf (CByte OEq 32) (KGoto (LTr 26) KNil) KNil (KIf (CAnd (CByte OGe 33) (CByte OLe 126)) (KGoto (LSt 212) KNil) KNil (KGoto (LTr 24) KNil))))
].

(* /repo/rfc5424/machine.go *)
Definition prog5424_8 : list (label * code act cnd) := [
  (* machine.go:5079 st212 *) ((LSt 212), (KInc (KIf CPe (KGoto (LEofN 212) KNil) KNil KNil)));
  (* machine.go:5083 stCase212 *) ((LCase 212), (KIf (CByte OEq 32) (KGoto (LTr 26) KNil) KNil (KIf (CAnd (CByte OGe 33) (CByte OLe 126)) (KGoto (LSt 213) KNil) KNil (KGoto (LTr 24) KNil))));
  (* machine.go:5091 st213 *) ((LSt 213), (KInc (KIf CPe (KGoto (LEofN 213) KNil) KNil KNil)));
  (* machine.go:5095 stCase213 *) ((LCase 213), (KIf (CByte OEq 32) (KGoto (LTr 26) KNil) KNil (KIf (CAnd (CByte OGe 33) (CByte OLe 126)) (KGoto (LSt 214) KNil) KNil (KGoto (LTr 24) KNil))));
  (* machine.go:5103 st214 *) ((LSt 214), (KInc (KIf CPe (KGoto (LEofN 214) KNil) KNil KNil)));
  (* machine.go:5107 stCase214 *) ((LCase 214), (KIf (CByte OEq 32) (KGoto (LTr 26) KNil) KNil (KIf (CAnd (CByte OGe 33) (CByte OLe 126)) (KGoto (LSt 215) KNil) KNil (KGoto (LTr 24) KNil))));
  (* machine.go:5115 st215 *) ((LSt 215), (KInc (KIf CPe (KGoto (LEofN 215) KNil) KNil KNil)));
  (* machine.go:5119 stCase215 *) ((LCase 215), (KIf (CByte OEq 32) (KGoto (LTr 26) KNil) KNil (KIf (CAnd (CByte OGe 33) (CByte OLe 126)) (KGoto (LSt 216) KNil) KNil (KGoto (LTr 24) KNil))));
  (* machine.go:5127 st216 *) ((LSt 216), (KInc (KIf CPe (KGoto (LEofN 216) KNil) KNil KNil)));
  (* machine.go:5131 stCase216 *) ((LCase 216), (KIf (CByte OEq 32) (KGoto (LTr 26) KNil) KNil (KIf (CAnd (CByte OGe 33) (CByte OLe 126)) (KGoto (LSt 217) KNil) KNil (KGoto (LTr 24) KNil))));
  (* machine.go:5139 st217 *) ((LSt 217), (KInc (KIf CPe (KGoto (LEofN 217) KNil) KNil KNil)));
  (* machine.go:5143 stCase217 *) ((LCase 217), (KIf (CByte OEq 32) (KGoto (LTr 26) KNil) KNil (KIf (CAnd (CByte OGe 33) (CByte OLe 126)) (KGoto (LSt 218) KNil) KNil (KGoto (LTr 24) KNil))));
  (* machine.go:5151 st218 *) ((LSt 218), (KInc (KIf CPe (KGoto (LEofN 218) KNil) KNil KNil)));
  (* machine.go:5155 stCase218 *) ((LCase 218), (KIf (CByte OEq 32) (KGoto (LTr 26) KNil) KNil (KIf (CAnd (CByte OGe 33) (CByte OLe 126)) (KGoto (LSt 219) KNil) KNil (KGoto (LTr 24) KNil))));
  (* machine.go:5163 st219 *) ((LSt 219), (KInc (KIf CPe (KGoto (LEofN 219) KNil) KNil KNil)));
  (* machine.go:5167 stCase219 *) ((LCase 219), (KIf (CByte OEq 32) (KGoto (LTr 26) KNil) KNil (KIf (CAnd (CByte OGe 33) (CByte OLe 126)) (KGoto (LSt 220) KNil) KNil (KGoto (LTr 24) KNil))));
  (* machine.go:5175 st220 *) ((LSt 220), (KInc (KIf CPe (KGoto (LEofN 220) KNil) KNil KNil)));
  (* machine.go:5179 stCase220 *) ((LCase 220), (KIf (CByte OEq 32) (KGoto (LTr 26) KNil) KNil (KIf (CAnd (CByte OGe 33) (CByte OLe 126)) (KGoto (LSt 221) KNil) KNil (KGoto (LTr 24) KNil))));
  (* machine.go:5187 st221 *) ((LSt 221), (KInc (KIf CPe (KGoto (LEofN 221) KNil) KNil KNil)));
  (* machine.go:5191 stCase221 *) ((LCase 221), (KIf (CByte OEq 32) (KGoto (LTr 26) KNil) KNil (KIf (CAnd (CByte OGe 33) (CByte OLe 126)) (KGoto (LSt 222) KNil) KNil (KGoto (LTr 24) KNil))));
  (* machine.go:5199 st222 *) ((LSt 222), (KInc (KIf CPe (KGoto (LEofN 222) KNil) KNil KNil)));
  (* machine.go:5203 stCase222 *) ((LCase 222), (KIf (CByte OEq 32) (KGoto (LTr 26) KNil) KNil (KIf (CAnd (CByte OGe 33) (CByte OLe 126)) (KGoto (LSt 223) KNil) KNil (KGoto (LTr 24) KNil))));
  (* machine.go:5211 st223 *) ((LSt 223), (KInc (KIf CPe (KGoto (LEofN 223) KNil) KNil KNil)));
  (* machine.go:5215 stCase223 *) ((LCase 223), (KIf (CByte OEq 32) (KGoto (LTr 26) KNil) KNil (KIf (CAnd (CByte OGe 33) (CByte OLe 126)) (KGoto (LSt 224) KNil) KNil (KGoto (LTr 24) KNil))));
  (* machine.go:5223 st224 *) ((LSt 224), (KInc (KIf CPe (KGoto (LEofN 224) KNil) KNil KNil)));
  (* machine.go:5227 stCase224 *) ((LCase 224), (KIf (CByte OEq 32) (KGoto (LTr 26) KNil) KNil (KIf (CAnd (CByte OGe 33) (CByte OLe 126)) (KGoto (LSt 225) KNil) KNil (KGoto (LTr 24) KNil))));
  (* machine.go:5235 st225 *) ((LSt 225), (KInc (KIf CPe (KGoto (LEofN 225) KNil) KNil KNil)));
  (* machine.go:5239 stCase225 *) ((LCase 225), (KIf (CByte OEq 32) (KGoto (LTr 26) KNil) KNil (KIf (CAnd (CByte OGe 33) (CByte OLe 126)) (KGoto (LSt 226) KNil) KNil (KGoto (LTr 24) KNil))));
  (* machine.go:5247 st226 *) ((LSt 226), (KInc (KIf CPe (KGoto (LEofN 226) KNil) KNil KNil)));
  (* machine.go:5251 stCase226 *) ((LCase 226), (KIf (CByte OEq 32) (KGoto (LTr 26) KNil) KNil (KIf (CAnd (CByte OGe 33) (CByte OLe 126)) (KGoto (LSt 227) KNil) KNil (KGoto (LTr 24) KNil))));
  (* machine.go:5259 st227 *) ((LSt 227), (KInc (KIf CPe (KGoto (LEofN 227) KNil) KNil KNil)));
  (* machine.go:5263 stCase227 *) ((LCase 227), (KIf (CByte OEq 32) (KGoto (LTr 26) KNil) KNil (KIf (CAnd (CByte OGe 33) (CByte OLe 126)) (KGoto (LSt 228) KNil) KNil (KGoto (LTr 24) KNil))));
  (* machine.go:5271 st228 *) ((LSt 228), (KInc (KIf CPe (KGoto (LEofN 228) KNil) KNil KNil)));
  (* machine.go:5275 stCase228 *) ((LCase 228), (KIf (CByte OEq 32) (KGoto (LTr 26) KNil) KNil (KIf (CAnd (CByte OGe 33) (CByte OLe 126)) (KGoto (LSt 229) KNil) KNil (KGoto (LTr 24) KNil))));
  (* machine.go:5283 st229 *) ((LSt 229), (KInc (KIf CPe (KGoto (LEofN 229) KNil) KNil KNil)));
  (* machine.go:5287 stCase229 *) ((LCase 229), (KIf (CByte OEq 32) (KGoto (LTr 26) KNil) KNil (KIf (CAnd (CByte OGe 33) (CByte OLe 126)) (KGoto (LSt 230) KNil) KNil (KGoto (LTr 24) KNil))));
  (* machine.go:5295 st230 *) ((LSt 230), (KInc (KIf CPe (KGoto (LEofN 230) KNil) KNil KNil)));
  (* machine.go:5299 stCase230 *) ((LCase 230), (KIf (CByte OEq 32) (KGoto (LTr 26) KNil) KNil (KIf (CAnd (CByte OGe 33) (CByte OLe 126)) (KGoto (LSt 231) KNil) KNil (KGoto (LTr 24) KNil))));
  (* machine.go:5307 st231 *) ((LSt 231), (KInc (KIf CPe (KGoto (LEofN 231) KNil) KNil KNil)));
  (* machine.go:5311 stCase231 *) ((LCase 231), (KIf (CByte OEq 32) (KGoto (LTr 26) KNil) KNil (KIf (CAnd (CByte OGe 33) (CByte OLe 126)) (KGoto (LSt 232) KNil) KNil (KGoto (LTr 24) KNil))));
  (* machine.go:5319 st232 *) ((LSt 232), (KInc (KIf CPe (KGoto (LEofN 232) KNil) KNil KNil)));
  (* machine.go:5323 stCase232 *) ((LCase 232), (KIf (CByte OEq 32) (KGoto (LTr 26) KNil) KNil (KIf (CAnd (CByte OGe 33) (CByte OLe 126)) (KGoto (LSt 233) KNil) KNil (KGoto (LTr 24) KNil))));
  (* machine.go:5331 st233 *) ((LSt 233), (KInc (KIf CPe (KGoto (LEofN 233) KNil) KNil KNil)));
  (* machine.go:5335 stCase233 *) ((LCase 233), (KIf (CByte OEq 32) (KGoto (LTr 26) KNil) KNil (KIf (CAnd (CByte OGe 33) (CByte OLe 126)) (KGoto (LSt 234) KNil) KNil (KGoto (LTr 24) KNil))));
  (* machine.go:5343 st234 *) ((LSt 234), (KInc (KIf CPe (KGoto (LEofN 234) KNil) KNil KNil)));
  (* machine.go:5347 stCase234 *) ((LCase 234), (KIf (CByte OEq 32) (KGoto (LTr 26) KNil) KNil (KIf (CAnd (CByte OGe 33) (CByte OLe 126)) (KGoto (LSt 235) KNil) KNil (KGoto (LTr 24) KNil))));
  (* machine.go:5355 st235 *) ((LSt 235), (KInc (KIf CPe (KGoto (LEofN 235) KNil) KNil KNil)));
  (* machine.go:5359 stCase235 *) ((LCase 235), (KIf (CByte OEq 32) (KGoto (LTr 26) KNil) KNil (KIf (CAnd (CByte OGe 33) (CByte OLe 126)) (KGoto (LSt 236) KNil) KNil (KGoto (LTr 24) KNil))));
  (* machine.go:5367 st236 *) ((LSt 236), (KInc (KIf CPe (KGoto (LEofN 236) KNil) KNil KNil)));
  (* machine.go:5371 stCase236 *) ((LCase 236), (KIf (CByte OEq 32) (KGoto (LTr 26) KNil) KNil (KIf (CAnd (CByte OGe 33) (CByte OLe 126)) (KGoto (LSt 237) KNil) KNil (KGoto (LTr 24) KNil))));
  (* machine.go:5379 st237 *) ((LSt 237), (KInc (KIf CPe (KGoto (LEofN 237) KNil) KNil KNil)));
  (* machine.go:5383 stCase237 *) ((LCase 237), (KIf (CByte OEq 32) (KGoto (LTr 26) KNil) KNil (KIf (CAnd (CByte OGe 33) (CByte OLe 126)) (KGoto (LSt 238) KNil) KNil (KGoto (LTr 24) KNil))));
  (* machine.go:5391 st238 *) ((LSt 238), (KInc (KIf CPe (KGoto (LEofN 238) KNil) KNil KNil)));
  (* machine.go:5395 stCase238 *) ((LCase 238), (KIf (CByte OEq 32) (KGoto (LTr 26) KNil) KNil (KIf (CAnd (CByte OGe 33) (CByte OLe 126)) (KGoto (LSt 239) KNil) KNil (KGoto (LTr 24) KNil))));
  (* machine.go:5403 st239 *) ((LSt 239), (KInc (KIf CPe (KGoto (LEofN 239) KNil) KNil KNil)));
  (* machine.go:5407 stCase239 *) ((LCase 239), (KIf (CByte OEq 32) (KGoto (LTr 26) KNil) KNil (KIf (CAnd (CByte OGe 33) (CByte OLe 126)) (KGoto (LSt 240) KNil) KNil (KGoto (LTr 24) KNil))));
  (* machine.go:5415 st240 *) ((LSt 240), (KInc (KIf CPe (KGoto (LEofN 240) KNil) KNil KNil)));
  (* machine.go:5419 stCase240 *) ((LCase 240), (KIf (CByte OEq 32) (KGoto (LTr 26) KNil) KNil (KIf (CAnd (CByte OGe 33) (CByte OLe 126)) (KGoto (LSt 241) KNil) KNil (KGoto (LTr 24) KNil))));
  (* machine.go:5427 st241 *) ((LSt 241), (KInc (KIf CPe (KGoto (LEofN 241) KNil) KNil KNil)));
  (* machine.go:5431 stCase241 *) ((LCase 241), (KIf (CByte OEq 32) (KGoto (LTr 26) KNil) KNil (KIf (CAnd (CByte OGe 33) (CByte OLe 126)) (KGoto (LSt 242) KNil) KNil (KGoto (LTr 24) KNil))))
].

(* /repo/rfc5424/machine.go *)
Definition prog5424_9 : list (label * code act cnd) := [
  (* machine.go:5439 st242 *) ((LSt 242), (KInc (KIf CPe (KGoto (LEofN 242) KNil) KNil KNil)));
  (* machine.go:5443 stCase242 *) ((LCase 242), (KIf (CByte OEq 32) (KGoto (LTr 26) KNil) KNil (KIf (CAnd (CByte OGe 33) (CByte OLe 126)) (KGoto (LSt 243) KNil) KNil (KGoto (LTr 24) KNil))));
  (* machine.go:5451 st243 *) ((LSt 243), (KInc (KIf CPe (KGoto (LEofN 243) KNil) KNil KNil)));
  (* machine.go:5455 stCase243 *) ((LCase 243), (KIf (CByte OEq 32) (KGoto (LTr 26) KNil) KNil (KIf (CAnd (CByte OGe 33) (CByte OLe 126)) (KGoto (LSt 244) KNil) KNil (KGoto (LTr 24) KNil))));
  (* machine.go:5463 st244 *) ((LSt 244), (KInc (KIf CPe (KGoto (LEofN 244) KNil) KNil KNil)));
  (* machine.go:5467 stCase244 *) ((LCase 244), (KIf (CByte OEq 32) (KGoto (LTr 26) KNil) KNil (KIf (CAnd (CByte OGe 33) (CByte OLe 126)) (KGoto (LSt 245) KNil) KNil (KGoto (LTr 24) KNil))));
  (* machine.go:5475 st245 *) ((LSt 245), (KInc (KIf CPe (KGoto (LEofN 245) KNil) KNil KNil)));
  (* machine.go:5479 stCase245 *) ((LCase 245), (KIf (CByte OEq 32) (KGoto (LTr 26) KNil) KNil (KIf (CAnd (CByte OGe 33) (CByte OLe 126)) (KGoto (LSt 246) KNil) KNil (KGoto (LTr 24) KNil))));
  (* machine.go:5487 st246 *) ((LSt 246), (KInc (KIf CPe (KGoto (LEofN 246) KNil) KNil KNil)));
  (* machine.go:5491 stCase246 *) ((LCase 246), (KIf (CByte OEq 32) (KGoto (LTr 26) KNil) KNil (KIf (CAnd (CByte OGe 33) (CByte OLe 126)) (KGoto (LSt 247) KNil) KNil (KGoto (LTr 24) KNil))));
  (* machine.go:5499 st247 *) ((LSt 247), (KInc (KIf CPe (KGoto (LEofN 247) KNil) KNil KNil)));
  (* machine.go:5503 stCase247 *) ((LCase 247), (KIf (CByte OEq 32) (KGoto (LTr 26) KNil) KNil (KIf (CAnd (CByte OGe 33) (CByte OLe 126)) (KGoto (LSt 248) KNil) KNil (KGoto (LTr 24) KNil))));
  (* machine.go:5511 st248 *) ((LSt 248), (KInc (KIf CPe (KGoto (LEofN 248) KNil) KNil KNil)));
  (* machine.go:5515 stCase248 *) ((LCase 248), (KIf (CByte OEq 32) (KGoto (LTr 26) KNil) KNil (KIf (CAnd (CByte OGe 33) (CByte OLe 126)) (KGoto (LSt 249) KNil) KNil (KGoto (LTr 24) KNil))));
  (* machine.go:5523 st249 *) ((LSt 249), (KInc (KIf CPe (KGoto (LEofN 249) KNil) KNil KNil)));
  (* machine.go:5527 stCase249 *) ((LCase 249), (KIf (CByte OEq 32) (KGoto (LTr 26) KNil) KNil (KIf (CAnd (CByte OGe 33) (CByte OLe 126)) (KGoto (LSt 250) KNil) KNil (KGoto (LTr 24) KNil))));
  (* machine.go:5535 st250 *) ((LSt 250), (KInc (KIf CPe (KGoto (LEofN 250) KNil) KNil KNil)));
  (* machine.go:5539 stCase250 *) ((LCase 250), (KIf (CByte OEq 32) (KGoto (LTr 26) KNil) KNil (KIf (CAnd (CByte OGe 33) (CByte OLe 126)) (KGoto (LSt 251) KNil) KNil (KGoto (LTr 24) KNil))));
  (* machine.go:5547 st251 *) ((LSt 251), (KInc (KIf CPe (KGoto (LEofN 251) KNil) KNil KNil)));
  (* machine.go:5551 stCase251 *) ((LCase 251), (KIf (CByte OEq 32) (KGoto (LTr 26) KNil) KNil (KIf (CAnd (CByte OGe 33) (CByte OLe 126)) (KGoto (LSt 252) KNil) KNil (KGoto (LTr 24) KNil))));
  (* machine.go:5559 st252 *) ((LSt 252), (KInc (KIf CPe (KGoto (LEofN 252) KNil) KNil KNil)));
  (* machine.go:5563 stCase252 *) ((LCase 252), (KIf (CByte OEq 32) (KGoto (LTr 26) KNil) KNil (KGoto (LTr 24) KNil)));
  (* machine.go:5568 st253 *) ((LSt 253), (KInc (KIf CPe (KGoto (LEofN 253) KNil) KNil KNil)));
  (* machine.go:5572 stCase253 *) ((LCase 253), (KIf (CByte OEq 32) (KGoto (LTr 22) KNil) KNil (KIf (CAnd (CByte OGe 33) (CByte OLe 126)) (KGoto (LSt 254) KNil) KNil (KGoto (LTr 20) KNil))));
  (* machine.go:5580 st254 *) ((LSt 254), (KInc (KIf CPe (KGoto (LEofN 254) KNil) KNil KNil)));
  (* machine.go:5584 stCase254 *) ((LCase 254), (KIf (CByte OEq 32) (KGoto (LTr 22) KNil) KNil (KIf (CAnd (CByte OGe 33) (CByte OLe 126)) (KGoto (LSt 255) KNil) KNil (KGoto (LTr 20) KNil))));
  (* machine.go:5592 st255 *) ((LSt 255), (KInc (KIf CPe (KGoto (LEofN 255) KNil) KNil KNil)));
  (* machine.go:5596 stCase255 *) ((LCase 255), (KIf (CByte OEq 32) (KGoto (LTr 22) KNil) KNil (KIf (CAnd (CByte OGe 33) (CByte OLe 126)) (KGoto (LSt 256) KNil) KNil (KGoto (LTr 20) KNil))));
  (* machine.go:5604 st256 *) ((LSt 256), (KInc (KIf CPe (KGoto (LEofN 256) KNil) KNil KNil)));
  (* machine.go:5608 stCase256 *) ((LCase 256), (KIf (CByte OEq 32) (KGoto (LTr 22) KNil) KNil (KIf (CAnd (CByte OGe 33) (CByte OLe 126)) (KGoto (LSt 257) KNil) KNil (KGoto (LTr 20) KNil))));
  (* machine.go:5616 st257 *) ((LSt 257), (KInc (KIf CPe (KGoto (LEofN 257) KNil) KNil KNil)));
  (* machine.go:5620 stCase257 *) ((LCase 257), (KIf (CByte OEq 32) (KGoto (LTr 22) KNil) KNil (KIf (CAnd (CByte OGe 33) (CByte OLe 126)) (KGoto (LSt 258) KNil) KNil (KGoto (LTr 20) KNil))));
  (* machine.go:5628 st258 *) ((LSt 258), (KInc (KIf CPe (KGoto (LEofN 258) KNil) KNil KNil)));
  (* machine.go:5632 stCase258 *) ((LCase 258), (KIf (CByte OEq 32) (KGoto (LTr 22) KNil) KNil (KIf (CAnd (CByte OGe 33) (CByte OLe 126)) (KGoto (LSt 259) KNil) KNil (KGoto (LTr 20) KNil))));
  (* machine.go:5640 st259 *) ((LSt 259), (KInc (KIf CPe (KGoto (LEofN 259) KNil) KNil KNil)));
  (* machine.go:5644 stCase259 *) ((LCase 259), (KIf (CByte OEq 32) (KGoto (LTr 22) KNil) KNil (KIf (CAnd (CByte OGe 33) (CByte OLe 126)) (KGoto (LSt 260) KNil) KNil (KGoto (LTr 20) KNil))));
  (* machine.go:5652 st260 *) ((LSt 260), (KInc (KIf CPe (KGoto (LEofN 260) KNil) KNil KNil)));
  (* machine.go:5656 stCase260 *) ((LCase 260), (KIf (CByte OEq 32) (KGoto (LTr 22) KNil) KNil (KIf (CAnd (CByte OGe 33) (CByte OLe 126)) (KGoto (LSt 261) KNil) KNil (KGoto (LTr 20) KNil))));
  (* machine.go:5664 st261 *) ((LSt 261), (KInc (KIf CPe (KGoto (LEofN 261) KNil) KNil KNil)));
  (* machine.go:5668 stCase261 *) ((LCase 261), (KIf (CByte OEq 32) (KGoto (LTr 22) KNil) KNil (KIf (CAnd (CByte OGe 33) (CByte OLe 126)) (KGoto (LSt 262) KNil) KNil (KGoto (LTr 20) KNil))));
  (* machine.go:5676 st262 *) ((LSt 262), (KInc (KIf CPe (KGoto (LEofN 262) KNil) KNil KNil)));
  (* machine.go:5680 stCase262 *) ((LCase 262), (KIf (CByte OEq 32) (KGoto (LTr 22) KNil) KNil (KIf (CAnd (CByte OGe 33) (CByte OLe 126)) (KGoto (LSt 263) KNil) KNil (KGoto (LTr 20) KNil))));
  (* machine.go:5688 st263 *) ((LSt 263), (KInc (KIf CPe (KGoto (LEofN 263) KNil) KNil KNil)));
  (* machine.go:5692 stCase263 *) ((LCase 263), (KIf (CByte OEq 32) (KGoto (LTr 22) KNil) KNil (KIf (CAnd (CByte OGe 33) (CByte OLe 126)) (KGoto (LSt 264) KNil) KNil (KGoto (LTr 20) KNil))));
  (* machine.go:5700 st264 *) ((LSt 264), (KInc (KIf CPe (KGoto (LEofN 264) KNil) KNil KNil)));
  (* machine.go:5704 stCase264 *) ((LCase 264), (KIf (CByte OEq 32) (KGoto (LTr 22) KNil) KNil (KIf (CAnd (CByte OGe 33) (CByte OLe 126)) (KGoto (LSt 265) KNil) KNil (KGoto (LTr 20) KNil))));
  (* machine.go:5712 st265 *) ((LSt 265), (KInc (KIf CPe (KGoto (LEofN 265) KNil) KNil KNil)));
  (* machine.go:5716 stCase265 *) ((LCase 265), (KIf (CByte OEq 32) (KGoto (LTr 22) KNil) KNil (KIf (CAnd (CByte OGe 33) (CByte OLe 126)) (KGoto (LSt 266) KNil) KNil (KGoto (LTr 20) KNil))));
  (* machine.go:5724 st266 *) ((LSt 266), (KInc (KIf CPe (KGoto (LEofN 266) KNil) KNil KNil)));
  (* machine.go:5728 stCase266 *) ((LCase 266), (KIf (CByte OEq 32) (KGoto (LTr 22) KNil) KNil (KIf (CAnd (CByte OGe 33) (CByte OLe 126)) (KGoto (LSt 267) KNil) KNil (KGoto (LTr 20) KNil))));
  (* machine.go:5736 st267 *) ((LSt 267), (KInc (KIf CPe (KGoto (LEofN 267) KNil) KNil KNil)));
  (* machine.go:5740 stCase267 *) ((LCase 267), (KIf (CByte OEq 32) (KGoto (LTr 22) KNil) KNil (KIf (CAnd (CByte OGe 33) (CByte OLe 126)) (KGoto (LSt 268) KNil) KNil (KGoto (LTr 20) KNil))));
  (* machine.go:5748 st268 *) ((LSt 268), (KInc (KIf CPe (KGoto (LEofN 268) KNil) KNil KNil)));
  (* machine.go:5752 stCase268 *) ((LCase 268), (KIf (CByte OEq 32) (KGoto (LTr 22) KNil) KNil (KIf (CAnd (CByte OGe 33) (CByte OLe 126)) (KGoto (LSt 269) KNil) KNil (KGoto (LTr 20) KNil))));
  (* machine.go:5760 st269 *) ((LSt 269), (KInc (KIf CPe (KGoto (LEofN 269) KNil) KNil KNil)));
  (* machine.go:5764 stCase269 *) ((LCase 269), (KIf (CByte OEq 32) (KGoto (LTr 22) KNil) KNil (KIf (CAnd (CByte OGe 33) (CByte OLe 126)) (KGoto (LSt 270) KNil) KNil (KGoto (LTr 20) KNil))));
  (* machine.go:5772 st270 *) ((LSt 270), (KInc (KIf CPe (KGoto (LEofN 270) KNil) KNil KNil)));
  (* machine.go:5776 stCase270 *) ((LCase 270), (KIf (CByte OEq 32) (KGoto (LTr 22) KNil) KNil (KIf (CAnd (CByte OGe 33) (CByte OLe 126)) (KGoto (LSt 271) KNil) KNil (KGoto (LTr 20) KNil))));
  (* machine.go:5784 st271 *) ((LSt 271), (KInc (KIf CPe (KGoto (LEofN 271) KNil) KNil KNil)));
  (* machine.go:5788 stCase271 *) ((LCase 271), (KIf (CByte OEq 32) (KGoto (LTr 22) KNil) KNil (KIf (CAnd (CByte OGe 33) (CByte OLe 126)) (KGoto (LSt 272) KNil) KNil (KGoto (LTr 20) KNil))))
].

(* /repo/rfc5424/machine.go *)
Definition prog5424_10 : list (label * code act cnd) := [
  (* machine.go:5796 st272 *) ((LSt 272), (KInc (KIf CPe (KGoto (LEofN 272) KNil) KNil KNil)));
  (* machine.go:5800 stCase272 *) ((LCase 272), (KIf (CByte OEq 32) (KGoto (LTr 22) KNil) KNil (KIf (CAnd (CByte OGe 33) (CByte OLe 126)) (KGoto (LSt 273) KNil) KNil (KGoto (LTr 20) KNil))));
  (* machine.go:5808 st273 *) ((LSt 273), (KInc (KIf CPe (KGoto (LEofN 273) KNil) KNil KNil)));
  (* machine.go:5812 stCase273 *) ((LCase 273), (KIf (CByte OEq 32) (KGoto (LTr 22) KNil) KNil (KIf (CAnd (CByte OGe 33) (CByte OLe 126)) (KGoto (LSt 274) KNil) KNil (KGoto (LTr 20) KNil))));
  (* machine.go:5820 st274 *) ((LSt 274), (KInc (KIf CPe (KGoto (LEofN 274) KNil) KNil KNil)));
  (* machine.go:5824 stCase274 *) ((LCase 274), (KIf (CByte OEq 32) (KGoto (LTr 22) KNil) KNil (KIf (CAnd (CByte OGe 33) (CByte OLe 126)) (KGoto (LSt 275) KNil) KNil (KGoto (LTr 20) KNil))));
  (* machine.go:5832 st275 *) ((LSt 275), (KInc (KIf CPe (KGoto (LEofN 275) KNil) KNil KNil)));
  (* machine.go:5836 stCase275 *) ((LCase 275), (KIf (CByte OEq 32) (KGoto (LTr 22) KNil) KNil (KIf (CAnd (CByte OGe 33) (CByte OLe 126)) (KGoto (LSt 276) KNil) KNil (KGoto (LTr 20) KNil))));
  (* machine.go:5844 st276 *) ((LSt 276), (KInc (KIf CPe (KGoto (LEofN 276) KNil) KNil KNil)));
  (* machine.go:5848 stCase276 *) ((LCase 276), (KIf (CByte OEq 32) (KGoto (LTr 22) KNil) KNil (KIf (CAnd (CByte OGe 33) (CByte OLe 126)) (KGoto (LSt 277) KNil) KNil (KGoto (LTr 20) KNil))));
  (* machine.go:5856 st277 *) ((LSt 277), (KInc (KIf CPe (KGoto (LEofN 277) KNil) KNil KNil)));
  (* machine.go:5860 stCase277 *) ((LCase 277), (KIf (CByte OEq 32) (KGoto (LTr 22) KNil) KNil (KIf (CAnd (CByte OGe 33) (CByte OLe 126)) (KGoto (LSt 278) KNil) KNil (KGoto (LTr 20) KNil))));
  (* machine.go:5868 st278 *) ((LSt 278), (KInc (KIf CPe (KGoto (LEofN 278) KNil) KNil KNil)));
  (* machine.go:5872 stCase278 *) ((LCase 278), (KIf (CByte OEq 32) (KGoto (LTr 22) KNil) KNil (KIf (CAnd (CByte OGe 33) (CByte OLe 126)) (KGoto (LSt 279) KNil) KNil (KGoto (LTr 20) KNil))));
  (* machine.go:5880 st279 *) ((LSt 279), (KInc (KIf CPe (KGoto (LEofN 279) KNil) KNil KNil)));
  (* machine.go:5884 stCase279 *) ((LCase 279), (KIf (CByte OEq 32) (KGoto (LTr 22) KNil) KNil (KIf (CAnd (CByte OGe 33) (CByte OLe 126)) (KGoto (LSt 280) KNil) KNil (KGoto (LTr 20) KNil))));
  (* machine.go:5892 st280 *) ((LSt 280), (KInc (KIf CPe (KGoto (LEofN 280) KNil) KNil KNil)));
  (* machine.go:5896 stCase280 *) ((LCase 280), (KIf (CByte OEq 32) (KGoto (LTr 22) KNil) KNil (KIf (CAnd (CByte OGe 33) (CByte OLe 126)) (KGoto (LSt 281) KNil) KNil (KGoto (LTr 20) KNil))));
  (* machine.go:5904 st281 *) ((LSt 281), (KInc (KIf CPe (KGoto (LEofN 281) KNil) KNil KNil)));
  (* machine.go:5908 stCase281 *) ((LCase 281), (KIf (CByte OEq 32) (KGoto (LTr 22) KNil) KNil (KIf (CAnd (CByte OGe 33) (CByte OLe 126)) (KGoto (LSt 282) KNil) KNil (KGoto (LTr 20) KNil))));
  (* machine.go:5916 st282 *) ((LSt 282), (KInc (KIf CPe (KGoto (LEofN 282) KNil) KNil KNil)));
  (* machine.go:5920 stCase282 *) ((LCase 282), (KIf (CByte OEq 32) (KGoto (LTr 22) KNil) KNil (KIf (CAnd (CByte OGe 33) (CByte OLe 126)) (KGoto (LSt 283) KNil) KNil (KGoto (LTr 20) KNil))));
  (* machine.go:5928 st283 *) ((LSt 283), (KInc (KIf CPe (KGoto (LEofN 283) KNil) KNil KNil)));
  (* machine.go:5932 stCase283 *) ((LCase 283), (KIf (CByte OEq 32) (KGoto (LTr 22) KNil) KNil (KIf (CAnd (CByte OGe 33) (CByte OLe 126)) (KGoto (LSt 284) KNil) KNil (KGoto (LTr 20) KNil))));
  (* machine.go:5940 st284 *) ((LSt 284), (KInc (KIf CPe (KGoto (LEofN 284) KNil) KNil KNil)));
  (* machine.go:5944 stCase284 *) ((LCase 284), (KIf (CByte OEq 32) (KGoto (LTr 22) KNil) KNil (KIf (CAnd (CByte OGe 33) (CByte OLe 126)) (KGoto (LSt 285) KNil) KNil (KGoto (LTr 20) KNil))));
  (* machine.go:5952 st285 *) ((LSt 285), (KInc (KIf CPe (KGoto (LEofN 285) KNil) KNil KNil)));
  (* machine.go:5956 stCase285 *) ((LCase 285), (KIf (CByte OEq 32) (KGoto (LTr 22) KNil) KNil (KIf (CAnd (CByte OGe 33) (CByte OLe 126)) (KGoto (LSt 286) KNil) KNil (KGoto (LTr 20) KNil))));
  (* machine.go:5964 st286 *) ((LSt 286), (KInc (KIf CPe (KGoto (LEofN 286) KNil) KNil KNil)));
  (* machine.go:5968 stCase286 *) ((LCase 286), (KIf (CByte OEq 32) (KGoto (LTr 22) KNil) KNil (KIf (CAnd (CByte OGe 33) (CByte OLe 126)) (KGoto (LSt 287) KNil) KNil (KGoto (LTr 20) KNil))));
  (* machine.go:5976 st287 *) ((LSt 287), (KInc (KIf CPe (KGoto (LEofN 287) KNil) KNil KNil)));
  (* machine.go:5980 stCase287 *) ((LCase 287), (KIf (CByte OEq 32) (KGoto (LTr 22) KNil) KNil (KIf (CAnd (CByte OGe 33) (CByte OLe 126)) (KGoto (LSt 288) KNil) KNil (KGoto (LTr 20) KNil))));
  (* machine.go:5988 st288 *) ((LSt 288), (KInc (KIf CPe (KGoto (LEofN 288) KNil) KNil KNil)));
  (* machine.go:5992 stCase288 *) ((LCase 288), (KIf (CByte OEq 32) (KGoto (LTr 22) KNil) KNil (KIf (CAnd (CByte OGe 33) (CByte OLe 126)) (KGoto (LSt 289) KNil) KNil (KGoto (LTr 20) KNil))));
  (* machine.go:6000 st289 *) ((LSt 289), (KInc (KIf CPe (KGoto (LEofN 289) KNil) KNil KNil)));
  (* machine.go:6004 stCase289 *) ((LCase 289), (KIf (CByte OEq 32) (KGoto (LTr 22) KNil) KNil (KIf (CAnd (CByte OGe 33) (CByte OLe 126)) (KGoto (LSt 290) KNil) KNil (KGoto (LTr 20) KNil))));
  (* machine.go:6012 st290 *) ((LSt 290), (KInc (KIf CPe (KGoto (LEofN 290) KNil) KNil KNil)));
  (* machine.go:6016 stCase290 *) ((LCase 290), (KIf (CByte OEq 32) (KGoto (LTr 22) KNil) KNil (KIf (CAnd (CByte OGe 33) (CByte OLe 126)) (KGoto (LSt 291) KNil) KNil (KGoto (LTr 20) KNil))));
  (* machine.go:6024 st291 *) ((LSt 291), (KInc (KIf CPe (KGoto (LEofN 291) KNil) KNil KNil)));
  (* machine.go:6028 stCase291 *) ((LCase 291), (KIf (CByte OEq 32) (KGoto (LTr 22) KNil) KNil (KIf (CAnd (CByte OGe 33) (CByte OLe 126)) (KGoto (LSt 292) KNil) KNil (KGoto (LTr 20) KNil))));
  (* machine.go:6036 st292 *) ((LSt 292), (KInc (KIf CPe (KGoto (LEofN 292) KNil) KNil KNil)));
  (* machine.go:6040 stCase292 *) ((LCase 292), (KIf (CByte OEq 32) (KGoto (LTr 22) KNil) KNil (KIf (CAnd (CByte OGe 33) (CByte OLe 126)) (KGoto (LSt 293) KNil) KNil (KGoto (LTr 20) KNil))));
  (* machine.go:6048 st293 *) ((LSt 293), (KInc (KIf CPe (KGoto (LEofN 293) KNil) KNil KNil)));
  (* machine.go:6052 stCase293 *) ((LCase 293), (KIf (CByte OEq 32) (KGoto (LTr 22) KNil) KNil (KIf (CAnd (CByte OGe 33) (CByte OLe 126)) (KGoto (LSt 294) KNil) KNil (KGoto (LTr 20) KNil))));
  (* machine.go:6060 st294 *) ((LSt 294), (KInc (KIf CPe (KGoto (LEofN 294) KNil) KNil KNil)));
  (* machine.go:6064 stCase294 *) ((LCase 294), (KIf (CByte OEq 32) (KGoto (LTr 22) KNil) KNil (KIf (CAnd (CByte OGe 33) (CByte OLe 126)) (KGoto (LSt 295) KNil) KNil (KGoto (LTr 20) KNil))));
  (* machine.go:6072 st295 *) ((LSt 295), (KInc (KIf CPe (KGoto (LEofN 295) KNil) KNil KNil)));
  (* machine.go:6076 stCase295 *) ((LCase 295), (KIf (CByte OEq 32) (KGoto (LTr 22) KNil) KNil (KIf (CAnd (CByte OGe 33) (CByte OLe 126)) (KGoto (LSt 296) KNil) KNil (KGoto (LTr 20) KNil))));
  (* machine.go:6084 st296 *) ((LSt 296), (KInc (KIf CPe (KGoto (LEofN 296) KNil) KNil KNil)));
  (* machine.go:6088 stCase296 *) ((LCase 296), (KIf (CByte OEq 32) (KGoto (LTr 22) KNil) KNil (KIf (CAnd (CByte OGe 33) (CByte OLe 126)) (KGoto (LSt 297) KNil) KNil (KGoto (LTr 20) KNil))));
  (* machine.go:6096 st297 *) ((LSt 297), (KInc (KIf CPe (KGoto (LEofN 297) KNil) KNil KNil)));
  (* machine.go:6100 stCase297 *) ((LCase 297), (KIf (CByte OEq 32) (KGoto (LTr 22) KNil) KNil (KIf (CAnd (CByte OGe 33) (CByte OLe 126)) (KGoto (LSt 298) KNil) KNil (KGoto (LTr 20) KNil))));
  (* machine.go:6108 st298 *) ((LSt 298), (KInc (KIf CPe (KGoto (LEofN 298) KNil) KNil KNil)));
  (* machine.go:6112 stCase298 *) ((LCase 298), (KIf (CByte OEq 32) (KGoto (LTr 22) KNil) KNil (KIf (CAnd (CByte OGe 33) (CByte OLe 126)) (KGoto (LSt 299) KNil) KNil (KGoto (LTr 20) KNil))));
  (* machine.go:6120 st299 *) ((LSt 299), (KInc (KIf CPe (KGoto (LEofN 299) KNil) KNil KNil)));
  (* machine.go:6124 stCase299 *) ((LCase 299), (KIf (CByte OEq 32) (KGoto (LTr 22) KNil) KNil (KGoto (LTr 20) KNil)));
  (* machine.go:6129 st300 *) ((LSt 300), (KInc (KIf CPe (KGoto (LEofN 300) KNil) KNil KNil)));
  (* machine.go:6133 stCase300 *) ((LCase 300), (KIf (CByte OEq 32) (KGoto (LTr 18) KNil) KNil (KIf (CAnd (CByte OGe 33) (CByte OLe 126)) (KGoto (LSt 301) KNil) KNil (KGoto (LTr 16) KNil))));
  (* machine.go:6141 st301 *) ((LSt 301), (KInc (KIf CPe (KGoto (LEofN 301) KNil) KNil KNil)));
  (* machine.go:6145 stCase301 *) ((LCase 301), (KIf (CByte OEq 32) (KGoto (LTr 18) KNil) KNil (KIf (CAnd (CByte OGe 33) (CByte OLe 126)) (KGoto (LSt 302) KNil) KNil (KGoto (LTr 16) KNil))))
].

(* /repo/rfc5424/machine.go *)
Definition prog5424_11 : list (label * code act cnd) := [
  (* machine.go:6153 st302 *) ((LSt 302), (KInc (KIf CPe (KGoto (LEofN 302) KNil) KNil KNil)));
  (* machine.go:6157 stCase302 *) ((LCase 302), (KIf (CByte OEq 32) (KGoto (LTr 18) KNil) KNil (KIf (CAnd (CByte OGe 33) (CByte OLe 126)) (KGoto (LSt 303) KNil) KNil (KGoto (LTr 16) KNil))));
  (* machine.go:6165 st303 *) ((LSt 303), (KInc (KIf CPe (KGoto (LEofN 303) KNil) KNil KNil)));
  (* machine.go:6169 stCase303 *) ((LCase 303), (KIf (CByte OEq 32) (KGoto (LTr 18) KNil) KNil (KIf (CAnd (CByte OGe 33) (CByte OLe 126)) (KGoto (LSt 304) KNil) KNil (KGoto (LTr 16) KNil))));
  (* machine.go:6177 st304 *) ((LSt 304), (KInc (KIf CPe (KGoto (LEofN 304) KNil) KNil KNil)));
  (* machine.go:6181 stCase304 *) ((LCase 304), (KIf (CByte OEq 32) (KGoto (LTr 18) KNil) KNil (KIf (CAnd (CByte OGe 33) (CByte OLe 126)) (KGoto (LSt 305) KNil) KNil (KGoto (LTr 16) KNil))));
  (* machine.go:6189 st305 *) ((LSt 305), (KInc (KIf CPe (KGoto (LEofN 305) KNil) KNil KNil)));
  (* machine.go:6193 stCase305 *) ((LCase 305), (KIf (CByte OEq 32) (KGoto (LTr 18) KNil) KNil (KIf (CAnd (CByte OGe 33) (CByte OLe 126)) (KGoto (LSt 306) KNil) KNil (KGoto (LTr 16) KNil))));
  (* machine.go:6201 st306 *) ((LSt 306), (KInc (KIf CPe (KGoto (LEofN 306) KNil) KNil KNil)));
  (* machine.go:6205 stCase306 *) ((LCase 306), (KIf (CByte OEq 32) (KGoto (LTr 18) KNil) KNil (KIf (CAnd (CByte OGe 33) (CByte OLe 126)) (KGoto (LSt 307) KNil) KNil (KGoto (LTr 16) KNil))));
  (* machine.go:6213 st307 *) ((LSt 307), (KInc (KIf CPe (KGoto (LEofN 307) KNil) KNil KNil)));
  (* machine.go:6217 stCase307 *) ((LCase 307), (KIf (CByte OEq 32) (KGoto (LTr 18) KNil) KNil (KIf (CAnd (CByte OGe 33) (CByte OLe 126)) (KGoto (LSt 308) KNil) KNil (KGoto (LTr 16) KNil))));
  (* machine.go:6225 st308 *) ((LSt 308), (KInc (KIf CPe (KGoto (LEofN 308) KNil) KNil KNil)));
  (* machine.go:6229 stCase308 *) ((LCase 308), (KIf (CByte OEq 32) (KGoto (LTr 18) KNil) KNil (KIf (CAnd (CByte OGe 33) (CByte OLe 126)) (KGoto (LSt 309) KNil) KNil (KGoto (LTr 16) KNil))));
  (* machine.go:6237 st309 *) ((LSt 309), (KInc (KIf CPe (KGoto (LEofN 309) KNil) KNil KNil)));
  (* machine.go:6241 stCase309 *) ((LCase 309), (KIf (CByte OEq 32) (KGoto (LTr 18) KNil) KNil (KIf (CAnd (CByte OGe 33) (CByte OLe 126)) (KGoto (LSt 310) KNil) KNil (KGoto (LTr 16) KNil))));
  (* machine.go:6249 st310 *) ((LSt 310), (KInc (KIf CPe (KGoto (LEofN 310) KNil) KNil KNil)));
  (* machine.go:6253 stCase310 *) ((LCase 310), (KIf (CByte OEq 32) (KGoto (LTr 18) KNil) KNil (KIf (CAnd (CByte OGe 33) (CByte OLe 126)) (KGoto (LSt 311) KNil) KNil (KGoto (LTr 16) KNil))));
  (* machine.go:6261 st311 *) ((LSt 311), (KInc (KIf CPe (KGoto (LEofN 311) KNil) KNil KNil)));
  (* machine.go:6265 stCase311 *) ((LCase 311), (KIf (CByte OEq 32) (KGoto (LTr 18) KNil) KNil (KIf (CAnd (CByte OGe 33) (CByte OLe 126)) (KGoto (LSt 312) KNil) KNil (KGoto (LTr 16) KNil))));
  (* machine.go:6273 st312 *) ((LSt 312), (KInc (KIf CPe (KGoto (LEofN 312) KNil) KNil KNil)));
  (* machine.go:6277 stCase312 *) ((LCase 312), (KIf (CByte OEq 32) (KGoto (LTr 18) KNil) KNil (KIf (CAnd (CByte OGe 33) (CByte OLe 126)) (KGoto (LSt 313) KNil) KNil (KGoto (LTr 16) KNil))));
  (* machine.go:6285 st313 *) ((LSt 313), (KInc (KIf CPe (KGoto (LEofN 313) KNil) KNil KNil)));
  (* machine.go:6289 stCase313 *) ((LCase 313), (KIf (CByte OEq 32) (KGoto (LTr 18) KNil) KNil (KIf (CAnd (CByte OGe 33) (CByte OLe 126)) (KGoto (LSt 314) KNil) KNil (KGoto (LTr 16) KNil))));
  (* machine.go:6297 st314 *) ((LSt 314), (KInc (KIf CPe (KGoto (LEofN 314) KNil) KNil KNil)));
  (* machine.go:6301 stCase314 *) ((LCase 314), (KIf (CByte OEq 32) (KGoto (LTr 18) KNil) KNil (KIf (CAnd (CByte OGe 33) (CByte OLe 126)) (KGoto (LSt 315) KNil) KNil (KGoto (LTr 16) KNil))));
  (* machine.go:6309 st315 *) ((LSt 315), (KInc (KIf CPe (KGoto (LEofN 315) KNil) KNil KNil)));
  (* machine.go:6313 stCase315 *) ((LCase 315), (KIf (CByte OEq 32) (KGoto (LTr 18) KNil) KNil (KIf (CAnd (CByte OGe 33) (CByte OLe 126)) (KGoto (LSt 316) KNil) KNil (KGoto (LTr 16) KNil))));
  (* machine.go:6321 st316 *) ((LSt 316), (KInc (KIf CPe (KGoto (LEofN 316) KNil) KNil KNil)));
  (* machine.go:6325 stCase316 *) ((LCase 316), (KIf (CByte OEq 32) (KGoto (LTr 18) KNil) KNil (KIf (CAnd (CByte OGe 33) (CByte OLe 126)) (KGoto (LSt 317) KNil) KNil (KGoto (LTr 16) KNil))));
  (* machine.go:6333 st317 *) ((LSt 317), (KInc (KIf CPe (KGoto (LEofN 317) KNil) KNil KNil)));
  (* machine.go:6337 stCase317 *) ((LCase 317), (KIf (CByte OEq 32) (KGoto (LTr 18) KNil) KNil (KIf (CAnd (CByte OGe 33) (CByte OLe 126)) (KGoto (LSt 318) KNil) KNil (KGoto (LTr 16) KNil))));
  (* machine.go:6345 st318 *) ((LSt 318), (KInc (KIf CPe (KGoto (LEofN 318) KNil) KNil KNil)));
  (* machine.go:6349 stCase318 *) ((LCase 318), (KIf (CByte OEq 32) (KGoto (LTr 18) KNil) KNil (KIf (CAnd (CByte OGe 33) (CByte OLe 126)) (KGoto (LSt 319) KNil) KNil (KGoto (LTr 16) KNil))));
  (* machine.go:6357 st319 *) ((LSt 319), (KInc (KIf CPe (KGoto (LEofN 319) KNil) KNil KNil)));
  (* machine.go:6361 stCase319 *) ((LCase 319), (KIf (CByte OEq 32) (KGoto (LTr 18) KNil) KNil (KIf (CAnd (CByte OGe 33) (CByte OLe 126)) (KGoto (LSt 320) KNil) KNil (KGoto (LTr 16) KNil))));
  (* machine.go:6369 st320 *) ((LSt 320), (KInc (KIf CPe (KGoto (LEofN 320) KNil) KNil KNil)));
  (* machine.go:6373 stCase320 *) ((LCase 320), (KIf (CByte OEq 32) (KGoto (LTr 18) KNil) KNil (KIf (CAnd (CByte OGe 33) (CByte OLe 126)) (KGoto (LSt 321) KNil) KNil (KGoto (LTr 16) KNil))));
  (* machine.go:6381 st321 *) ((LSt 321), (KInc (KIf CPe (KGoto (LEofN 321) KNil) KNil KNil)));
  (* machine.go:6385 stCase321 *) ((LCase 321), (KIf (CByte OEq 32) (KGoto (LTr 18) KNil) KNil (KIf (CAnd (CByte OGe 33) (CByte OLe 126)) (KGoto (LSt 322) KNil) KNil (KGoto (LTr 16) KNil))));
  (* machine.go:6393 st322 *) ((LSt 322), (KInc (KIf CPe (KGoto (LEofN 322) KNil) KNil KNil)));
  (* machine.go:6397 stCase322 *) ((LCase 322), (KIf (CByte OEq 32) (KGoto (LTr 18) KNil) KNil (KIf (CAnd (CByte OGe 33) (CByte OLe 126)) (KGoto (LSt 323) KNil) KNil (KGoto (LTr 16) KNil))));
  (* machine.go:6405 st323 *) ((LSt 323), (KInc (KIf CPe (KGoto (LEofN 323) KNil) KNil KNil)));
  (* machine.go:6409 stCase323 *) ((LCase 323), (KIf (CByte OEq 32) (KGoto (LTr 18) KNil) KNil (KIf (CAnd (CByte OGe 33) (CByte OLe 126)) (KGoto (LSt 324) KNil) KNil (KGoto (LTr 16) KNil))));
  (* machine.go:6417 st324 *) ((LSt 324), (KInc (KIf CPe (KGoto (LEofN 324) KNil) KNil KNil)));
  (* machine.go:6421 stCase324 *) ((LCase 324), (KIf (CByte OEq 32) (KGoto (LTr 18) KNil) KNil (KIf (CAnd (CByte OGe 33) (CByte OLe 126)) (KGoto (LSt 325) KNil) KNil (KGoto (LTr 16) KNil))));
  (* machine.go:6429 st325 *) ((LSt 325), (KInc (KIf CPe (KGoto (LEofN 325) KNil) KNil KNil)));
  (* machine.go:6433 stCase325 *) ((LCase 325), (KIf (CByte OEq 32) (KGoto (LTr 18) KNil) KNil (KIf (CAnd (CByte OGe 33) (CByte OLe 126)) (KGoto (LSt 326) KNil) KNil (KGoto (LTr 16) KNil))));
  (* machine.go:6441 st326 *) ((LSt 326), (KInc (KIf CPe (KGoto (LEofN 326) KNil) KNil KNil)));
  (* machine.go:6445 stCase326 *) ((LCase 326), (KIf (CByte OEq 32) (KGoto (LTr 18) KNil) KNil (KIf (CAnd (CByte OGe 33) (CByte OLe 126)) (KGoto (LSt 327) KNil) KNil (KGoto (LTr 16) KNil))));
  (* machine.go:6453 st327 *) ((LSt 327), (KInc (KIf CPe (KGoto (LEofN 327) KNil) KNil KNil)));
  (* machine.go:6457 stCase327 *) ((LCase 327), (KIf (CByte OEq 32) (KGoto (LTr 18) KNil) KNil (KIf (CAnd (CByte OGe 33) (CByte OLe 126)) (KGoto (LSt 328) KNil) KNil (KGoto (LTr 16) KNil))));
  (* machine.go:6465 st328 *) ((LSt 328), (KInc (KIf CPe (KGoto (LEofN 328) KNil) KNil KNil)));
  (* machine.go:6469 stCase328 *) ((LCase 328), (KIf (CByte OEq 32) (KGoto (LTr 18) KNil) KNil (KIf (CAnd (CByte OGe 33) (CByte OLe 126)) (KGoto (LSt 329) KNil) KNil (KGoto (LTr 16) KNil))));
  (* machine.go:6477 st329 *) ((LSt 329), (KInc (KIf CPe (KGoto (LEofN 329) KNil) KNil KNil)));
  (* machine.go:6481 stCase329 *) ((LCase 329), (KIf (CByte OEq 32) (KGoto (LTr 18) KNil) KNil (KIf (CAnd (CByte OGe 33) (CByte OLe 126)) (KGoto (LSt 330) KNil) KNil (KGoto (LTr 16) KNil))));
  (* machine.go:6489 st330 *) ((LSt 330), (KInc (KIf CPe (KGoto (LEofN 330) KNil) KNil KNil)));
  (* machine.go:6493 stCase330 *) ((LCase 330), (KIf (CByte OEq 32) (KGoto (LTr 18) KNil) KNil (KIf (CAnd (CByte OGe 33) (CByte OLe 126)) (KGoto (LSt 331) KNil) KNil (KGoto (LTr 16) KNil))));
  (* machine.go:6501 st331 *) ((LSt 331), (KInc (KIf CPe (KGoto (LEofN 331) KNil) KNil KNil)));
  (* machine.go:6505 stCase331 *) ((LCase 331), (KIf (CByte OEq 32) (KGoto (LTr 18) KNil) KNil (KIf (CAnd (CByte OGe 33) (CByte OLe 126)) (KGoto (LSt 332) KNil) KNil (KGoto (LTr 16) KNil))))
].

(* /repo/rfc5424/machine.go *)
Definition prog5424_12 : list (label * code act cnd) := [
  (* machine.go:6513 st332 *) ((LSt 332), (KInc (KIf CPe (KGoto (LEofN 332) KNil) KNil KNil)));
  (* machine.go:6517 stCase332 *) ((LCase 332), (KIf (CByte OEq 32) (KGoto (LTr 18) KNil) KNil (KIf (CAnd (CByte OGe 33) (CByte OLe 126)) (KGoto (LSt 333) KNil) KNil (KGoto (LTr 16) KNil))));
  (* machine.go:6525 st333 *) ((LSt 333), (KInc (KIf CPe (KGoto (LEofN 333) KNil) KNil KNil)));
  (* machine.go:6529 stCase333 *) ((LCase 333), (KIf (CByte OEq 32) (KGoto (LTr 18) KNil) KNil (KIf (CAnd (CByte OGe 33) (CByte OLe 126)) (KGoto (LSt 334) KNil) KNil (KGoto (LTr 16) KNil))));
  (* machine.go:6537 st334 *) ((LSt 334), (KInc (KIf CPe (KGoto (LEofN 334) KNil) KNil KNil)));
  (* machine.go:6541 stCase334 *) ((LCase 334), (KIf (CByte OEq 32) (KGoto (LTr 18) KNil) KNil (KIf (CAnd (CByte OGe 33) (CByte OLe 126)) (KGoto (LSt 335) KNil) KNil (KGoto (LTr 16) KNil))));
  (* machine.go:6549 st335 *) ((LSt 335), (KInc (KIf CPe (KGoto (LEofN 335) KNil) KNil KNil)));
  (* machine.go:6553 stCase335 *) ((LCase 335), (KIf (CByte OEq 32) (KGoto (LTr 18) KNil) KNil (KIf (CAnd (CByte OGe 33) (CByte OLe 126)) (KGoto (LSt 336) KNil) KNil (KGoto (LTr 16) KNil))));
  (* machine.go:6561 st336 *) ((LSt 336), (KInc (KIf CPe (KGoto (LEofN 336) KNil) KNil KNil)));
  (* machine.go:6565 stCase336 *) ((LCase 336), (KIf (CByte OEq 32) (KGoto (LTr 18) KNil) KNil (KIf (CAnd (CByte OGe 33) (CByte OLe 126)) (KGoto (LSt 337) KNil) KNil (KGoto (LTr 16) KNil))));
  (* machine.go:6573 st337 *) ((LSt 337), (KInc (KIf CPe (KGoto (LEofN 337) KNil) KNil KNil)));
  (* machine.go:6577 stCase337 *) ((LCase 337), (KIf (CByte OEq 32) (KGoto (LTr 18) KNil) KNil (KIf (CAnd (CByte OGe 33) (CByte OLe 126)) (KGoto (LSt 338) KNil) KNil (KGoto (LTr 16) KNil))));
  (* machine.go:6585 st338 *) ((LSt 338), (KInc (KIf CPe (KGoto (LEofN 338) KNil) KNil KNil)));
  (* machine.go:6589 stCase338 *) ((LCase 338), (KIf (CByte OEq 32) (KGoto (LTr 18) KNil) KNil (KIf (CAnd (CByte OGe 33) (CByte OLe 126)) (KGoto (LSt 339) KNil) KNil (KGoto (LTr 16) KNil))));
  (* machine.go:6597 st339 *) ((LSt 339), (KInc (KIf CPe (KGoto (LEofN 339) KNil) KNil KNil)));
  (* machine.go:6601 stCase339 *) ((LCase 339), (KIf (CByte OEq 32) (KGoto (LTr 18) KNil) KNil (KIf (CAnd (CByte OGe 33) (CByte OLe 126)) (KGoto (LSt 340) KNil) KNil (KGoto (LTr 16) KNil))));
  (* machine.go:6609 st340 *) ((LSt 340), (KInc (KIf CPe (KGoto (LEofN 340) KNil) KNil KNil)));
  (* machine.go:6613 stCase340 *) ((LCase 340), (KIf (CByte OEq 32) (KGoto (LTr 18) KNil) KNil (KIf (CAnd (CByte OGe 33) (CByte OLe 126)) (KGoto (LSt 341) KNil) KNil (KGoto (LTr 16) KNil))));
  (* machine.go:6621 st341 *) ((LSt 341), (KInc (KIf CPe (KGoto (LEofN 341) KNil) KNil KNil)));
  (* machine.go:6625 stCase341 *) ((LCase 341), (KIf (CByte OEq 32) (KGoto (LTr 18) KNil) KNil (KIf (CAnd (CByte OGe 33) (CByte OLe 126)) (KGoto (LSt 342) KNil) KNil (KGoto (LTr 16) KNil))));
  (* machine.go:6633 st342 *) ((LSt 342), (KInc (KIf CPe (KGoto (LEofN 342) KNil) KNil KNil)));
  (* machine.go:6637 stCase342 *) ((LCase 342), (KIf (CByte OEq 32) (KGoto (LTr 18) KNil) KNil (KIf (CAnd (CByte OGe 33) (CByte OLe 126)) (KGoto (LSt 343) KNil) KNil (KGoto (LTr 16) KNil))));
  (* machine.go:6645 st343 *) ((LSt 343), (KInc (KIf CPe (KGoto (LEofN 343) KNil) KNil KNil)));
  (* machine.go:6649 stCase343 *) ((LCase 343), (KIf (CByte OEq 32) (KGoto (LTr 18) KNil) KNil (KIf (CAnd (CByte OGe 33) (CByte OLe 126)) (KGoto (LSt 344) KNil) KNil (KGoto (LTr 16) KNil))));
  (* machine.go:6657 st344 *) ((LSt 344), (KInc (KIf CPe (KGoto (LEofN 344) KNil) KNil KNil)));
  (* machine.go:6661 stCase344 *) ((LCase 344), (KIf (CByte OEq 32) (KGoto (LTr 18) KNil) KNil (KIf (CAnd (CByte OGe 33) (CByte OLe 126)) (KGoto (LSt 345) KNil) KNil (KGoto (LTr 16) KNil))));
  (* machine.go:6669 st345 *) ((LSt 345), (KInc (KIf CPe (KGoto (LEofN 345) KNil) KNil KNil)));
  (* machine.go:6673 stCase345 *) ((LCase 345), (KIf (CByte OEq 32) (KGoto (LTr 18) KNil) KNil (KIf (CAnd (CByte OGe 33) (CByte OLe 126)) (KGoto (LSt 346) KNil) KNil (KGoto (LTr 16) KNil))));
  (* machine.go:6681 st346 *) ((LSt 346), (KInc (KIf CPe (KGoto (LEofN 346) KNil) KNil KNil)));
  (* machine.go:6685 stCase346 *) ((LCase 346), (KIf (CByte OEq 32) (KGoto (LTr 18) KNil) KNil (KIf (CAnd (CByte OGe 33) (CByte OLe 126)) (KGoto (LSt 347) KNil) KNil (KGoto (LTr 16) KNil))));
  (* machine.go:6693 st347 *) ((LSt 347), (KInc (KIf CPe (KGoto (LEofN 347) KNil) KNil KNil)));
  (* machine.go:6697 stCase347 *) ((LCase 347), (KIf (CByte OEq 32) (KGoto (LTr 18) KNil) KNil (KIf (CAnd (CByte OGe 33) (CByte OLe 126)) (KGoto (LSt 348) KNil) KNil (KGoto (LTr 16) KNil))));
  (* machine.go:6705 st348 *) ((LSt 348), (KInc (KIf CPe (KGoto (LEofN 348) KNil) KNil KNil)));
  (* machine.go:6709 stCase348 *) ((LCase 348), (KIf (CByte OEq 32) (KGoto (LTr 18) KNil) KNil (KIf (CAnd (CByte OGe 33) (CByte OLe 126)) (KGoto (LSt 349) KNil) KNil (KGoto (LTr 16) KNil))));
  (* machine.go:6717 st349 *) ((LSt 349), (KInc (KIf CPe (KGoto (LEofN 349) KNil) KNil KNil)));
  (* machine.go:6721 stCase349 *) ((LCase 349), (KIf (CByte OEq 32) (KGoto (LTr 18) KNil) KNil (KIf (CAnd (CByte OGe 33) (CByte OLe 126)) (KGoto (LSt 350) KNil) KNil (KGoto (LTr 16) KNil))));
  (* machine.go:6729 st350 *) ((LSt 350), (KInc (KIf CPe (KGoto (LEofN 350) KNil) KNil KNil)));
  (* machine.go:6733 stCase350 *) ((LCase 350), (KIf (CByte OEq 32) (KGoto (LTr 18) KNil) KNil (KIf (CAnd (CByte OGe 33) (CByte OLe 126)) (KGoto (LSt 351) KNil) KNil (KGoto (LTr 16) KNil))));
  (* machine.go:6741 st351 *) ((LSt 351), (KInc (KIf CPe (KGoto (LEofN 351) KNil) KNil KNil)));
  (* machine.go:6745 stCase351 *) ((LCase 351), (KIf (CByte OEq 32) (KGoto (LTr 18) KNil) KNil (KIf (CAnd (CByte OGe 33) (CByte OLe 126)) (KGoto (LSt 352) KNil) KNil (KGoto (LTr 16) KNil))));
  (* machine.go:6753 st352 *) ((LSt 352), (KInc (KIf CPe (KGoto (LEofN 352) KNil) KNil KNil)));
  (* machine.go:6757 stCase352 *) ((LCase 352), (KIf (CByte OEq 32) (KGoto (LTr 18) KNil) KNil (KIf (CAnd (CByte OGe 33) (CByte OLe 126)) (KGoto (LSt 353) KNil) KNil (KGoto (LTr 16) KNil))));
  (* machine.go:6765 st353 *) ((LSt 353), (KInc (KIf CPe (KGoto (LEofN 353) KNil) KNil KNil)));
  (* machine.go:6769 stCase353 *) ((LCase 353), (KIf (CByte OEq 32) (KGoto (LTr 18) KNil) KNil (KIf (CAnd (CByte OGe 33) (CByte OLe 126)) (KGoto (LSt 354) KNil) KNil (KGoto (LTr 16) KNil))));
  (* machine.go:6777 st354 *) ((LSt 354), (KInc (KIf CPe (KGoto (LEofN 354) KNil) KNil KNil)));
  (* machine.go:6781 stCase354 *) ((LCase 354), (KIf (CByte OEq 32) (KGoto (LTr 18) KNil) KNil (KIf (CAnd (CByte OGe 33) (CByte OLe 126)) (KGoto (LSt 355) KNil) KNil (KGoto (LTr 16) KNil))));
  (* machine.go:6789 st355 *) ((LSt 355), (KInc (KIf CPe (KGoto (LEofN 355) KNil) KNil KNil)));
  (* machine.go:6793 stCase355 *) ((LCase 355), (KIf (CByte OEq 32) (KGoto (LTr 18) KNil) KNil (KIf (CAnd (CByte OGe 33) (CByte OLe 126)) (KGoto (LSt 356) KNil) KNil (KGoto (LTr 16) KNil))));
  (* machine.go:6801 st356 *) ((LSt 356), (KInc (KIf CPe (KGoto (LEofN 356) KNil) KNil KNil)));
  (* machine.go:6805 stCase356 *) ((LCase 356), (KIf (CByte OEq 32) (KGoto (LTr 18) KNil) KNil (KIf (CAnd (CByte OGe 33) (CByte OLe 126)) (KGoto (LSt 357) KNil) KNil (KGoto (LTr 16) KNil))));
  (* machine.go:6813 st357 *) ((LSt 357), (KInc (KIf CPe (KGoto (LEofN 357) KNil) KNil KNil)));
  (* machine.go:6817 stCase357 *) ((LCase 357), (KIf (CByte OEq 32) (KGoto (LTr 18) KNil) KNil (KIf (CAnd (CByte OGe 33) (CByte OLe 126)) (KGoto (LSt 358) KNil) KNil (KGoto (LTr 16) KNil))));
  (* machine.go:6825 st358 *) ((LSt 358), (KInc (KIf CPe (KGoto (LEofN 358) KNil) KNil KNil)));
  (* machine.go:6829 stCase358 *) ((LCase 358), (KIf (CByte OEq 32) (KGoto (LTr 18) KNil) KNil (KIf (CAnd (CByte OGe 33) (CByte OLe 126)) (KGoto (LSt 359) KNil) KNil (KGoto (LTr 16) KNil))));
  (* machine.go:6837 st359 *) ((LSt 359), (KInc (KIf CPe (KGoto (LEofN 359) KNil) KNil KNil)));
  (* machine.go:6841 stCase359 *) ((LCase 359), (KIf (CByte OEq 32) (KGoto (LTr 18) KNil) KNil (KIf (CAnd (CByte OGe 33) (CByte OLe 126)) (KGoto (LSt 360) KNil) KNil (KGoto (LTr 16) KNil))));
  (* machine.go:6849 st360 *) ((LSt 360), (KInc (KIf CPe (KGoto (LEofN 360) KNil) KNil KNil)));
  (* machine.go:6853 stCase360 *) ((LCase 360), (KIf (CByte OEq 32) (KGoto (LTr 18) KNil) KNil (KIf (CAnd (CByte OGe 33) (CByte OLe 126)) (KGoto (LSt 361) KNil) KNil (KGoto (LTr 16) KNil))));
  (* machine.go:6861 st361 *) ((LSt 361), (KInc (KIf CPe (KGoto (LEofN 361) KNil) KNil KNil)));
  (* machine.go:6865 stCase361 *) ((LCase 361), (KIf (CByte OEq 32) (KGoto (LTr 18) KNil) KNil (KIf (CAnd (CByte OGe 33) (CByte OLe 126)) (KGoto (LSt 362) KNil) KNil (KGoto (LTr 16) KNil))))
].

(* /repo/rfc5424/machine.go *)
Definition prog5424_13 : list (label * code act cnd) := [
  (* machine.go:6873 st362 *) ((LSt 362), (KInc (KIf CPe (KGoto (LEofN 362) KNil) KNil KNil)));
  (* machine.go:6877 stCase362 *) ((LCase 362), (KIf (CByte OEq 32) (KGoto (LTr 18) KNil) KNil (KIf (CAnd (CByte OGe 33) (CByte OLe 126)) (KGoto (LSt 363) KNil) KNil (KGoto (LTr 16) KNil))));
  (* machine.go:6885 st363 *) ((LSt 363), (KInc (KIf CPe (KGoto (LEofN 363) KNil) KNil KNil)));
  (* machine.go:6889 stCase363 *) ((LCase 363), (KIf (CByte OEq 32) (KGoto (LTr 18) KNil) KNil (KIf (CAnd (CByte OGe 33) (CByte OLe 126)) (KGoto (LSt 364) KNil) KNil (KGoto (LTr 16) KNil))));
  (* machine.go:6897 st364 *) ((LSt 364), (KInc (KIf CPe (KGoto (LEofN 364) KNil) KNil KNil)));
  (* machine.go:6901 stCase364 *) ((LCase 364), (KIf (CByte OEq 32) (KGoto (LTr 18) KNil) KNil (KIf (CAnd (CByte OGe 33) (CByte OLe 126)) (KGoto (LSt 365) KNil) KNil (KGoto (LTr 16) KNil))));
  (* machine.go:6909 st365 *) ((LSt 365), (KInc (KIf CPe (KGoto (LEofN 365) KNil) KNil KNil)));
  (* machine.go:6913 stCase365 *) ((LCase 365), (KIf (CByte OEq 32) (KGoto (LTr 18) KNil) KNil (KIf (CAnd (CByte OGe 33) (CByte OLe 126)) (KGoto (LSt 366) KNil) KNil (KGoto (LTr 16) KNil))));
  (* machine.go:6921 st366 *) ((LSt 366), (KInc (KIf CPe (KGoto (LEofN 366) KNil) KNil KNil)));
  (* machine.go:6925 stCase366 *) ((LCase 366), (KIf (CByte OEq 32) (KGoto (LTr 18) KNil) KNil (KIf (CAnd (CByte OGe 33) (CByte OLe 126)) (KGoto (LSt 367) KNil) KNil (KGoto (LTr 16) KNil))));
  (* machine.go:6933 st367 *) ((LSt 367), (KInc (KIf CPe (KGoto (LEofN 367) KNil) KNil KNil)));
  (* machine.go:6937 stCase367 *) ((LCase 367), (KIf (CByte OEq 32) (KGoto (LTr 18) KNil) KNil (KIf (CAnd (CByte OGe 33) (CByte OLe 126)) (KGoto (LSt 368) KNil) KNil (KGoto (LTr 16) KNil))));
  (* machine.go:6945 st368 *) ((LSt 368), (KInc (KIf CPe (KGoto (LEofN 368) KNil) KNil KNil)));
  (* machine.go:6949 stCase368 *) ((LCase 368), (KIf (CByte OEq 32) (KGoto (LTr 18) KNil) KNil (KIf (CAnd (CByte OGe 33) (CByte OLe 126)) (KGoto (LSt 369) KNil) KNil (KGoto (LTr 16) KNil))));
  (* machine.go:6957 st369 *) ((LSt 369), (KInc (KIf CPe (KGoto (LEofN 369) KNil) KNil KNil)));
  (* machine.go:6961 stCase369 *) ((LCase 369), (KIf (CByte OEq 32) (KGoto (LTr 18) KNil) KNil (KIf (CAnd (CByte OGe 33) (CByte OLe 126)) (KGoto (LSt 370) KNil) KNil (KGoto (LTr 16) KNil))));
  (* machine.go:6969 st370 *) ((LSt 370), (KInc (KIf CPe (KGoto (LEofN 370) KNil) KNil KNil)));
  (* machine.go:6973 stCase370 *) ((LCase 370), (KIf (CByte OEq 32) (KGoto (LTr 18) KNil) KNil (KIf (CAnd (CByte OGe 33) (CByte OLe 126)) (KGoto (LSt 371) KNil) KNil (KGoto (LTr 16) KNil))));
  (* machine.go:6981 st371 *) ((LSt 371), (KInc (KIf CPe (KGoto (LEofN 371) KNil) KNil KNil)));
  (* machine.go:6985 stCase371 *) ((LCase 371), (KIf (CByte OEq 32) (KGoto (LTr 18) KNil) KNil (KIf (CAnd (CByte OGe 33) (CByte OLe 126)) (KGoto (LSt 372) KNil) KNil (KGoto (LTr 16) KNil))));
  (* machine.go:6993 st372 *) ((LSt 372), (KInc (KIf CPe (KGoto (LEofN 372) KNil) KNil KNil)));
  (* machine.go:6997 stCase372 *) ((LCase 372), (KIf (CByte OEq 32) (KGoto (LTr 18) KNil) KNil (KIf (CAnd (CByte OGe 33) (CByte OLe 126)) (KGoto (LSt 373) KNil) KNil (KGoto (LTr 16) KNil))));
  (* machine.go:7005 st373 *) ((LSt 373), (KInc (KIf CPe (KGoto (LEofN 373) KNil) KNil KNil)));
  (* machine.go:7009 stCase373 *) ((LCase 373), (KIf (CByte OEq 32) (KGoto (LTr 18) KNil) KNil (KIf (CAnd (CByte OGe 33) (CByte OLe 126)) (KGoto (LSt 374) KNil) KNil (KGoto (LTr 16) KNil))));
  (* machine.go:7017 st374 *) ((LSt 374), (KInc (KIf CPe (KGoto (LEofN 374) KNil) KNil KNil)));
  (* machine.go:7021 stCase374 *) ((LCase 374), (KIf (CByte OEq 32) (KGoto (LTr 18) KNil) KNil (KIf (CAnd (CByte OGe 33) (CByte OLe 126)) (KGoto (LSt 375) KNil) KNil (KGoto (LTr 16) KNil))));
  (* machine.go:7029 st375 *) ((LSt 375), (KInc (KIf CPe (KGoto (LEofN 375) KNil) KNil KNil)));
  (* machine.go:7033 stCase375 *) ((LCase 375), (KIf (CByte OEq 32) (KGoto (LTr 18) KNil) KNil (KIf (CAnd (CByte OGe 33) (CByte OLe 126)) (KGoto (LSt 376) KNil) KNil (KGoto (LTr 16) KNil))));
  (* machine.go:7041 st376 *) ((LSt 376), (KInc (KIf CPe (KGoto (LEofN 376) KNil) KNil KNil)));
  (* machine.go:7045 stCase376 *) ((LCase 376), (KIf (CByte OEq 32) (KGoto (LTr 18) KNil) KNil (KIf (CAnd (CByte OGe 33) (CByte OLe 126)) (KGoto (LSt 377) KNil) KNil (KGoto (LTr 16) KNil))));
  (* machine.go:7053 st377 *) ((LSt 377), (KInc (KIf CPe (KGoto (LEofN 377) KNil) KNil KNil)));
  (* machine.go:7057 stCase377 *) ((LCase 377), (KIf (CByte OEq 32) (KGoto (LTr 18) KNil) KNil (KIf (CAnd (CByte OGe 33) (CByte OLe 126)) (KGoto (LSt 378) KNil) KNil (KGoto (LTr 16) KNil))));
  (* machine.go:7065 st378 *) ((LSt 378), (KInc (KIf CPe (KGoto (LEofN 378) KNil) KNil KNil)));
  (* machine.go:7069 stCase378 *) ((LCase 378), (KIf (CByte OEq 32) (KGoto (LTr 18) KNil) KNil (KIf (CAnd (CByte OGe 33) (CByte OLe 126)) (KGoto (LSt 379) KNil) KNil (KGoto (LTr 16) KNil))));
  (* machine.go:7077 st379 *) ((LSt 379), (KInc (KIf CPe (KGoto (LEofN 379) KNil) KNil KNil)));
  (* machine.go:7081 stCase379 *) ((LCase 379), (KIf (CByte OEq 32) (KGoto (LTr 18) KNil) KNil (KIf (CAnd (CByte OGe 33) (CByte OLe 126)) (KGoto (LSt 380) KNil) KNil (KGoto (LTr 16) KNil))));
  (* machine.go:7089 st380 *) ((LSt 380), (KInc (KIf CPe (KGoto (LEofN 380) KNil) KNil KNil)));
  (* machine.go:7093 stCase380 *) ((LCase 380), (KIf (CByte OEq 32) (KGoto (LTr 18) KNil) KNil (KIf (CAnd (CByte OGe 33) (CByte OLe 126)) (KGoto (LSt 381) KNil) KNil (KGoto (LTr 16) KNil))));
  (* machine.go:7101 st381 *) ((LSt 381), (KInc (KIf CPe (KGoto (LEofN 381) KNil) KNil KNil)));
  (* machine.go:7105 stCase381 *) ((LCase 381), (KIf (CByte OEq 32) (KGoto (LTr 18) KNil) KNil (KIf (CAnd (CByte OGe 33) (CByte OLe 126)) (KGoto (LSt 382) KNil) KNil (KGoto (LTr 16) KNil))));
  (* machine.go:7113 st382 *) ((LSt 382), (KInc (KIf CPe (KGoto (LEofN 382) KNil) KNil KNil)));
  (* machine.go:7117 stCase382 *) ((LCase 382), (KIf (CByte OEq 32) (KGoto (LTr 18) KNil) KNil (KIf (CAnd (CByte OGe 33) (CByte OLe 126)) (KGoto (LSt 383) KNil) KNil (KGoto (LTr 16) KNil))));
  (* machine.go:7125 st383 *) ((LSt 383), (KInc (KIf CPe (KGoto (LEofN 383) KNil) KNil KNil)));
  (* machine.go:7129 stCase383 *) ((LCase 383), (KIf (CByte OEq 32) (KGoto (LTr 18) KNil) KNil (KIf (CAnd (CByte OGe 33) (CByte OLe 126)) (KGoto (LSt 384) KNil) KNil (KGoto (LTr 16) KNil))));
  (* machine.go:7137 st384 *) ((LSt 384), (KInc (KIf CPe (KGoto (LEofN 384) KNil) KNil KNil)));
  (* machine.go:7141 stCase384 *) ((LCase 384), (KIf (CByte OEq 32) (KGoto (LTr 18) KNil) KNil (KIf (CAnd (CByte OGe 33) (CByte OLe 126)) (KGoto (LSt 385) KNil) KNil (KGoto (LTr 16) KNil))));
  (* machine.go:7149 st385 *) ((LSt 385), (KInc (KIf CPe (KGoto (LEofN 385) KNil) KNil KNil)));
  (* machine.go:7153 stCase385 *) ((LCase 385), (KIf (CByte OEq 32) (KGoto (LTr 18) KNil) KNil (KIf (CAnd (CByte OGe 33) (CByte OLe 126)) (KGoto (LSt 386) KNil) KNil (KGoto (LTr 16) KNil))));
  (* machine.go:7161 st386 *) ((LSt 386), (KInc (KIf CPe (KGoto (LEofN 386) KNil) KNil KNil)));
  (* machine.go:7165 stCase386 *) ((LCase 386), (KIf (CByte OEq 32) (KGoto (LTr 18) KNil) KNil (KIf (CAnd (CByte OGe 33) (CByte OLe 126)) (KGoto (LSt 387) KNil) KNil (KGoto (LTr 16) KNil))));
  (* machine.go:7173 st387 *) ((LSt 387), (KInc (KIf CPe (KGoto (LEofN 387) KNil) KNil KNil)));
  (* machine.go:7177 stCase387 *) ((LCase 387), (KIf (CByte OEq 32) (KGoto (LTr 18) KNil) KNil (KIf (CAnd (CByte OGe 33) (CByte OLe 126)) (KGoto (LSt 388) KNil) KNil (KGoto (LTr 16) KNil))));
  (* machine.go:7185 st388 *) ((LSt 388), (KInc (KIf CPe (KGoto (LEofN 388) KNil) KNil KNil)));
  (* machine.go:7189 stCase388 *) ((LCase 388), (KIf (CByte OEq 32) (KGoto (LTr 18) KNil) KNil (KIf (CAnd (CByte OGe 33) (CByte OLe 126)) (KGoto (LSt 389) KNil) KNil (KGoto (LTr 16) KNil))));
  (* machine.go:7197 st389 *) ((LSt 389), (KInc (KIf CPe (KGoto (LEofN 389) KNil) KNil KNil)));
  (* machine.go:7201 stCase389 *) ((LCase 389), (KIf (CByte OEq 32) (KGoto (LTr 18) KNil) KNil (KIf (CAnd (CByte OGe 33) (CByte OLe 126)) (KGoto (LSt 390) KNil) KNil (KGoto (LTr 16) KNil))));
  (* machine.go:7209 st390 *) ((LSt 390), (KInc (KIf CPe (KGoto (LEofN 390) KNil) KNil KNil)));
  (* machine.go:7213 stCase390 *) ((LCase 390), (KIf (CByte OEq 32) (KGoto (LTr 18) KNil) KNil (KIf (CAnd (CByte OGe 33) (CByte OLe 126)) (KGoto (LSt 391) KNil) KNil (KGoto (LTr 16) KNil))));
  (* machine.go:7221 st391 *) ((LSt 391), (KInc (KIf CPe (KGoto (LEofN 391) KNil) KNil KNil)));
  (* machine.go:7225 stCase391 *) ((LCase 391), (KIf (CByte OEq 32) (KGoto (LTr 18) KNil) KNil (KIf (CAnd (CByte OGe 33) (CByte OLe 126)) (KGoto (LSt 392) KNil) KNil (KGoto (LTr 16) KNil))))
].

(* /repo/rfc5424/machine.go *)
Definition prog5424_14 : list (label * code act cnd) := [
  (* machine.go:7233 st392 *) ((LSt 392), (KInc (KIf CPe (KGoto (LEofN 392) KNil) KNil KNil)));
  (* machine.go:7237 stCase392 *) ((LCase 392), (KIf (CByte OEq 32) (KGoto (LTr 18) KNil) KNil (KIf (CAnd (CByte OGe 33) (CByte OLe 126)) (KGoto (LSt 393) KNil) KNil (KGoto (LTr 16) KNil))));
  (* machine.go:7245 st393 *) ((LSt 393), (KInc (KIf CPe (KGoto (LEofN 393) KNil) KNil KNil)));
  (* machine.go:7249 stCase393 *) ((LCase 393), (KIf (CByte OEq 32) (KGoto (LTr 18) KNil) KNil (KIf (CAnd (CByte OGe 33) (CByte OLe 126)) (KGoto (LSt 394) KNil) KNil (KGoto (LTr 16) KNil))));
  (* machine.go:7257 st394 *) ((LSt 394), (KInc (KIf CPe (KGoto (LEofN 394) KNil) KNil KNil)));
  (* machine.go:7261 stCase394 *) ((LCase 394), (KIf (CByte OEq 32) (KGoto (LTr 18) KNil) KNil (KIf (CAnd (CByte OGe 33) (CByte OLe 126)) (KGoto (LSt 395) KNil) KNil (KGoto (LTr 16) KNil))));
  (* machine.go:7269 st395 *) ((LSt 395), (KInc (KIf CPe (KGoto (LEofN 395) KNil) KNil KNil)));
  (* machine.go:7273 stCase395 *) ((LCase 395), (KIf (CByte OEq 32) (KGoto (LTr 18) KNil) KNil (KIf (CAnd (CByte OGe 33) (CByte OLe 126)) (KGoto (LSt 396) KNil) KNil (KGoto (LTr 16) KNil))));
  (* machine.go:7281 st396 *) ((LSt 396), (KInc (KIf CPe (KGoto (LEofN 396) KNil) KNil KNil)));
  (* machine.go:7285 stCase396 *) ((LCase 396), (KIf (CByte OEq 32) (KGoto (LTr 18) KNil) KNil (KIf (CAnd (CByte OGe 33) (CByte OLe 126)) (KGoto (LSt 397) KNil) KNil (KGoto (LTr 16) KNil))));
  (* machine.go:7293 st397 *) ((LSt 397), (KInc (KIf CPe (KGoto (LEofN 397) KNil) KNil KNil)));
  (* machine.go:7297 stCase397 *) ((LCase 397), (KIf (CByte OEq 32) (KGoto (LTr 18) KNil) KNil (KIf (CAnd (CByte OGe 33) (CByte OLe 126)) (KGoto (LSt 398) KNil) KNil (KGoto (LTr 16) KNil))));
  (* machine.go:7305 st398 *) ((LSt 398), (KInc (KIf CPe (KGoto (LEofN 398) KNil) KNil KNil)));
  (* machine.go:7309 stCase398 *) ((LCase 398), (KIf (CByte OEq 32) (KGoto (LTr 18) KNil) KNil (KIf (CAnd (CByte OGe 33) (CByte OLe 126)) (KGoto (LSt 399) KNil) KNil (KGoto (LTr 16) KNil))));
  (* machine.go:7317 st399 *) ((LSt 399), (KInc (KIf CPe (KGoto (LEofN 399) KNil) KNil KNil)));
  (* machine.go:7321 stCase399 *) ((LCase 399), (KIf (CByte OEq 32) (KGoto (LTr 18) KNil) KNil (KIf (CAnd (CByte OGe 33) (CByte OLe 126)) (KGoto (LSt 400) KNil) KNil (KGoto (LTr 16) KNil))));
  (* machine.go:7329 st400 *) ((LSt 400), (KInc (KIf CPe (KGoto (LEofN 400) KNil) KNil KNil)));
  (* machine.go:7333 stCase400 *) ((LCase 400), (KIf (CByte OEq 32) (KGoto (LTr 18) KNil) KNil (KIf (CAnd (CByte OGe 33) (CByte OLe 126)) (KGoto (LSt 401) KNil) KNil (KGoto (LTr 16) KNil))));
  (* machine.go:7341 st401 *) ((LSt 401), (KInc (KIf CPe (KGoto (LEofN 401) KNil) KNil KNil)));
  (* machine.go:7345 stCase401 *) ((LCase 401), (KIf (CByte OEq 32) (KGoto (LTr 18) KNil) KNil (KIf (CAnd (CByte OGe 33) (CByte OLe 126)) (KGoto (LSt 402) KNil) KNil (KGoto (LTr 16) KNil))));
  (* machine.go:7353 st402 *) ((LSt 402), (KInc (KIf CPe (KGoto (LEofN 402) KNil) KNil KNil)));
  (* machine.go:7357 stCase402 *) ((LCase 402), (KIf (CByte OEq 32) (KGoto (LTr 18) KNil) KNil (KIf (CAnd (CByte OGe 33) (CByte OLe 126)) (KGoto (LSt 403) KNil) KNil (KGoto (LTr 16) KNil))));
  (* machine.go:7365 st403 *) ((LSt 403), (KInc (KIf CPe (KGoto (LEofN 403) KNil) KNil KNil)));
  (* machine.go:7369 stCase403 *) ((LCase 403), (KIf (CByte OEq 32) (KGoto (LTr 18) KNil) KNil (KIf (CAnd (CByte OGe 33) (CByte OLe 126)) (KGoto (LSt 404) KNil) KNil (KGoto (LTr 16) KNil))));
  (* machine.go:7377 st404 *) ((LSt 404), (KInc (KIf CPe (KGoto (LEofN 404) KNil) KNil KNil)));
  (* machine.go:7381 stCase404 *) ((LCase 404), (KIf (CByte OEq 32) (KGoto (LTr 18) KNil) KNil (KIf (CAnd (CByte OGe 33) (CByte OLe 126)) (KGoto (LSt 405) KNil) KNil (KGoto (LTr 16) KNil))));
  (* machine.go:7389 st405 *) ((LSt 405), (KInc (KIf CPe (KGoto (LEofN 405) KNil) KNil KNil)));
  (* machine.go:7393 stCase405 *) ((LCase 405), (KIf (CByte OEq 32) (KGoto (LTr 18) KNil) KNil (KIf (CAnd (CByte OGe 33) (CByte OLe 126)) (KGoto (LSt 406) KNil) KNil (KGoto (LTr 16) KNil))));
  (* machine.go:7401 st406 *) ((LSt 406), (KInc (KIf CPe (KGoto (LEofN 406) KNil) KNil KNil)));
  (* machine.go:7405 stCase406 *) ((LCase 406), (KIf (CByte OEq 32) (KGoto (LTr 18) KNil) KNil (KIf (CAnd (CByte OGe 33) (CByte OLe 126)) (KGoto (LSt 407) KNil) KNil (KGoto (LTr 16) KNil))));
  (* machine.go:7413 st407 *) ((LSt 407), (KInc (KIf CPe (KGoto (LEofN 407) KNil) KNil KNil)));
  (* machine.go:7417 stCase407 *) ((LCase 407), (KIf (CByte OEq 32) (KGoto (LTr 18) KNil) KNil (KIf (CAnd (CByte OGe 33) (CByte OLe 126)) (KGoto (LSt 408) KNil) KNil (KGoto (LTr 16) KNil))));
  (* machine.go:7425 st408 *) ((LSt 408), (KInc (KIf CPe (KGoto (LEofN 408) KNil) KNil KNil)));
  (* machine.go:7429 stCase408 *) ((LCase 408), (KIf (CByte OEq 32) (KGoto (LTr 18) KNil) KNil (KIf (CAnd (CByte OGe 33) (CByte OLe 126)) (KGoto (LSt 409) KNil) KNil (KGoto (LTr 16) KNil))));
  (* machine.go:7437 st409 *) ((LSt 409), (KInc (KIf CPe (KGoto (LEofN 409) KNil) KNil KNil)));
  (* machine.go:7441 stCase409 *) ((LCase 409), (KIf (CByte OEq 32) (KGoto (LTr 18) KNil) KNil (KIf (CAnd (CByte OGe 33) (CByte OLe 126)) (KGoto (LSt 410) KNil) KNil (KGoto (LTr 16) KNil))));
  (* machine.go:7449 st410 *) ((LSt 410), (KInc (KIf CPe (KGoto (LEofN 410) KNil) KNil KNil)));
  (* machine.go:7453 stCase410 *) ((LCase 410), (KIf (CByte OEq 32) (KGoto (LTr 18) KNil) KNil (KIf (CAnd (CByte OGe 33) (CByte OLe 126)) (KGoto (LSt 411) KNil) KNil (KGoto (LTr 16) KNil))));
  (* machine.go:7461 st411 *) ((LSt 411), (KInc (KIf CPe (KGoto (LEofN 411) KNil) KNil KNil)));
  (* machine.go:7465 stCase411 *) ((LCase 411), (KIf (CByte OEq 32) (KGoto (LTr 18) KNil) KNil (KIf (CAnd (CByte OGe 33) (CByte OLe 126)) (KGoto (LSt 412) KNil) KNil (KGoto (LTr 16) KNil))));
  (* machine.go:7473 st412 *) ((LSt 412), (KInc (KIf CPe (KGoto (LEofN 412) KNil) KNil KNil)));
  (* machine.go:7477 stCase412 *) ((LCase 412), (KIf (CByte OEq 32) (KGoto (LTr 18) KNil) KNil (KIf (CAnd (CByte OGe 33) (CByte OLe 126)) (KGoto (LSt 413) KNil) KNil (KGoto (LTr 16) KNil))));
  (* machine.go:7485 st413 *) ((LSt 413), (KInc (KIf CPe (KGoto (LEofN 413) KNil) KNil KNil)));
  (* machine.go:7489 stCase413 *) ((LCase 413), (KIf (CByte OEq 32) (KGoto (LTr 18) KNil) KNil (KIf (CAnd (CByte OGe 33) (CByte OLe 126)) (KGoto (LSt 414) KNil) KNil (KGoto (LTr 16) KNil))));
  (* machine.go:7497 st414 *) ((LSt 414), (KInc (KIf CPe (KGoto (LEofN 414) KNil) KNil KNil)));
  (* machine.go:7501 stCase414 *) ((LCase 414), (KIf (CByte OEq 32) (KGoto (LTr 18) KNil) KNil (KIf (CAnd (CByte OGe 33) (CByte OLe 126)) (KGoto (LSt 415) KNil) KNil (KGoto (LTr 16) KNil))));
  (* machine.go:7509 st415 *) ((LSt 415), (KInc (KIf CPe (KGoto (LEofN 415) KNil) KNil KNil)));
  (* machine.go:7513 stCase415 *) ((LCase 415), (KIf (CByte OEq 32) (KGoto (LTr 18) KNil) KNil (KIf (CAnd (CByte OGe 33) (CByte OLe 126)) (KGoto (LSt 416) KNil) KNil (KGoto (LTr 16) KNil))));
  (* machine.go:7521 st416 *) ((LSt 416), (KInc (KIf CPe (KGoto (LEofN 416) KNil) KNil KNil)));
  (* machine.go:7525 stCase416 *) ((LCase 416), (KIf (CByte OEq 32) (KGoto (LTr 18) KNil) KNil (KIf (CAnd (CByte OGe 33) (CByte OLe 126)) (KGoto (LSt 417) KNil) KNil (KGoto (LTr 16) KNil))));
  (* machine.go:7533 st417 *) ((LSt 417), (KInc (KIf CPe (KGoto (LEofN 417) KNil) KNil KNil)));
  (* machine.go:7537 stCase417 *) ((LCase 417), (KIf (CByte OEq 32) (KGoto (LTr 18) KNil) KNil (KIf (CAnd (CByte OGe 33) (CByte OLe 126)) (KGoto (LSt 418) KNil) KNil (KGoto (LTr 16) KNil))));
  (* machine.go:7545 st418 *) ((LSt 418), (KInc (KIf CPe (KGoto (LEofN 418) KNil) KNil KNil)));
  (* machine.go:7549 stCase418 *) ((LCase 418), (KIf (CByte OEq 32) (KGoto (LTr 18) KNil) KNil (KIf (CAnd (CByte OGe 33) (CByte OLe 126)) (KGoto (LSt 419) KNil) KNil (KGoto (LTr 16) KNil))));
  (* machine.go:7557 st419 *) ((LSt 419), (KInc (KIf CPe (KGoto (LEofN 419) KNil) KNil KNil)));
  (* machine.go:7561 stCase419 *) ((LCase 419), (KIf (CByte OEq 32) (KGoto (LTr 18) KNil) KNil (KIf (CAnd (CByte OGe 33) (CByte OLe 126)) (KGoto (LSt 420) KNil) KNil (KGoto (LTr 16) KNil))));
  (* machine.go:7569 st420 *) ((LSt 420), (KInc (KIf CPe (KGoto (LEofN 420) KNil) KNil KNil)));
  (* machine.go:7573 stCase420 *) ((LCase 420), (KIf (CByte OEq 32) (KGoto (LTr 18) KNil) KNil (KIf (CAnd (CByte OGe 33) (CByte OLe 126)) (KGoto (LSt 421) KNil) KNil (KGoto (LTr 16) KNil))));
  (* machine.go:7581 st421 *) ((LSt 421), (KInc (KIf CPe (KGoto (LEofN 421) KNil) KNil KNil)));
  (* machine.go:7585 stCase421 *) ((LCase 421), (KIf (CByte OEq 32) (KGoto (LTr 18) KNil) KNil (KIf (CAnd (CByte OGe 33) (CByte OLe 126)) (KGoto (LSt 422) KNil) KNil (KGoto (LTr 16) KNil))))
].

(* /repo/rfc5424/machine.go *)
Definition prog5424_15 : list (label * code act cnd) := [
  (* machine.go:7593 st422 *) ((LSt 422), (KInc (KIf CPe (KGoto (LEofN 422) KNil) KNil KNil)));
  (* machine.go:7597 stCase422 *) ((LCase 422), (KIf (CByte OEq 32) (KGoto (LTr 18) KNil) KNil (KIf (CAnd (CByte OGe 33) (CByte OLe 126)) (KGoto (LSt 423) KNil) KNil (KGoto (LTr 16) KNil))));
  (* machine.go:7605 st423 *) ((LSt 423), (KInc (KIf CPe (KGoto (LEofN 423) KNil) KNil KNil)));
  (* machine.go:7609 stCase423 *) ((LCase 423), (KIf (CByte OEq 32) (KGoto (LTr 18) KNil) KNil (KIf (CAnd (CByte OGe 33) (CByte OLe 126)) (KGoto (LSt 424) KNil) KNil (KGoto (LTr 16) KNil))));
  (* machine.go:7617 st424 *) ((LSt 424), (KInc (KIf CPe (KGoto (LEofN 424) KNil) KNil KNil)));
  (* machine.go:7621 stCase424 *) ((LCase 424), (KIf (CByte OEq 32) (KGoto (LTr 18) KNil) KNil (KIf (CAnd (CByte OGe 33) (CByte OLe 126)) (KGoto (LSt 425) KNil) KNil (KGoto (LTr 16) KNil))));
  (* machine.go:7629 st425 *) ((LSt 425), (KInc (KIf CPe (KGoto (LEofN 425) KNil) KNil KNil)));
  (* machine.go:7633 stCase425 *) ((LCase 425), (KIf (CByte OEq 32) (KGoto (LTr 18) KNil) KNil (KIf (CAnd (CByte OGe 33) (CByte OLe 126)) (KGoto (LSt 426) KNil) KNil (KGoto (LTr 16) KNil))));
  (* machine.go:7641 st426 *) ((LSt 426), (KInc (KIf CPe (KGoto (LEofN 426) KNil) KNil KNil)));
  (* machine.go:7645 stCase426 *) ((LCase 426), (KIf (CByte OEq 32) (KGoto (LTr 18) KNil) KNil (KIf (CAnd (CByte OGe 33) (CByte OLe 126)) (KGoto (LSt 427) KNil) KNil (KGoto (LTr 16) KNil))));
  (* machine.go:7653 st427 *) ((LSt 427), (KInc (KIf CPe (KGoto (LEofN 427) KNil) KNil KNil)));
  (* machine.go:7657 stCase427 *) ((LCase 427), (KIf (CByte OEq 32) (KGoto (LTr 18) KNil) KNil (KIf (CAnd (CByte OGe 33) (CByte OLe 126)) (KGoto (LSt 428) KNil) KNil (KGoto (LTr 16) KNil))));
  (* machine.go:7665 st428 *) ((LSt 428), (KInc (KIf CPe (KGoto (LEofN 428) KNil) KNil KNil)));
  (* machine.go:7669 stCase428 *) ((LCase 428), (KIf (CByte OEq 32) (KGoto (LTr 18) KNil) KNil (KIf (CAnd (CByte OGe 33) (CByte OLe 126)) (KGoto (LSt 429) KNil) KNil (KGoto (LTr 16) KNil))));
  (* machine.go:7677 st429 *) ((LSt 429), (KInc (KIf CPe (KGoto (LEofN 429) KNil) KNil KNil)));
  (* machine.go:7681 stCase429 *) ((LCase 429), (KIf (CByte OEq 32) (KGoto (LTr 18) KNil) KNil (KIf (CAnd (CByte OGe 33) (CByte OLe 126)) (KGoto (LSt 430) KNil) KNil (KGoto (LTr 16) KNil))));
  (* machine.go:7689 st430 *) ((LSt 430), (KInc (KIf CPe (KGoto (LEofN 430) KNil) KNil KNil)));
  (* machine.go:7693 stCase430 *) ((LCase 430), (KIf (CByte OEq 32) (KGoto (LTr 18) KNil) KNil (KIf (CAnd (CByte OGe 33) (CByte OLe 126)) (KGoto (LSt 431) KNil) KNil (KGoto (LTr 16) KNil))));
  (* machine.go:7701 st431 *) ((LSt 431), (KInc (KIf CPe (KGoto (LEofN 431) KNil) KNil KNil)));
  (* machine.go:7705 stCase431 *) ((LCase 431), (KIf (CByte OEq 32) (KGoto (LTr 18) KNil) KNil (KIf (CAnd (CByte OGe 33) (CByte OLe 126)) (KGoto (LSt 432) KNil) KNil (KGoto (LTr 16) KNil))));
  (* machine.go:7713 st432 *) ((LSt 432), (KInc (KIf CPe (KGoto (LEofN 432) KNil) KNil KNil)));
  (* machine.go:7717 stCase432 *) ((LCase 432), (KIf (CByte OEq 32) (KGoto (LTr 18) KNil) KNil (KIf (CAnd (CByte OGe 33) (CByte OLe 126)) (KGoto (LSt 433) KNil) KNil (KGoto (LTr 16) KNil))));
  (* machine.go:7725 st433 *) ((LSt 433), (KInc (KIf CPe (KGoto (LEofN 433) KNil) KNil KNil)));
  (* machine.go:7729 stCase433 *) ((LCase 433), (KIf (CByte OEq 32) (KGoto (LTr 18) KNil) KNil (KIf (CAnd (CByte OGe 33) (CByte OLe 126)) (KGoto (LSt 434) KNil) KNil (KGoto (LTr 16) KNil))));
  (* machine.go:7737 st434 *) ((LSt 434), (KInc (KIf CPe (KGoto (LEofN 434) KNil) KNil KNil)));
  (* machine.go:7741 stCase434 *) ((LCase 434), (KIf (CByte OEq 32) (KGoto (LTr 18) KNil) KNil (KIf (CAnd (CByte OGe 33) (CByte OLe 126)) (KGoto (LSt 435) KNil) KNil (KGoto (LTr 16) KNil))));
  (* machine.go:7749 st435 *) ((LSt 435), (KInc (KIf CPe (KGoto (LEofN 435) KNil) KNil KNil)));
  (* machine.go:7753 stCase435 *) ((LCase 435), (KIf (CByte OEq 32) (KGoto (LTr 18) KNil) KNil (KIf (CAnd (CByte OGe 33) (CByte OLe 126)) (KGoto (LSt 436) KNil) KNil (KGoto (LTr 16) KNil))));
  (* machine.go:7761 st436 *) ((LSt 436), (KInc (KIf CPe (KGoto (LEofN 436) KNil) KNil KNil)));
  (* machine.go:7765 stCase436 *) ((LCase 436), (KIf (CByte OEq 32) (KGoto (LTr 18) KNil) KNil (KIf (CAnd (CByte OGe 33) (CByte OLe 126)) (KGoto (LSt 437) KNil) KNil (KGoto (LTr 16) KNil))));
  (* machine.go:7773 st437 *) ((LSt 437), (KInc (KIf CPe (KGoto (LEofN 437) KNil) KNil KNil)));
  (* machine.go:7777 stCase437 *) ((LCase 437), (KIf (CByte OEq 32) (KGoto (LTr 18) KNil) KNil (KIf (CAnd (CByte OGe 33) (CByte OLe 126)) (KGoto (LSt 438) KNil) KNil (KGoto (LTr 16) KNil))));
  (* machine.go:7785 st438 *) ((LSt 438), (KInc (KIf CPe (KGoto (LEofN 438) KNil) KNil KNil)));
  (* machine.go:7789 stCase438 *) ((LCase 438), (KIf (CByte OEq 32) (KGoto (LTr 18) KNil) KNil (KIf (CAnd (CByte OGe 33) (CByte OLe 126)) (KGoto (LSt 439) KNil) KNil (KGoto (LTr 16) KNil))));
  (* machine.go:7797 st439 *) ((LSt 439), (KInc (KIf CPe (KGoto (LEofN 439) KNil) KNil KNil)));
  (* machine.go:7801 stCase439 *) ((LCase 439), (KIf (CByte OEq 32) (KGoto (LTr 18) KNil) KNil (KIf (CAnd (CByte OGe 33) (CByte OLe 126)) (KGoto (LSt 440) KNil) KNil (KGoto (LTr 16) KNil))));
  (* machine.go:7809 st440 *) ((LSt 440), (KInc (KIf CPe (KGoto (LEofN 440) KNil) KNil KNil)));
  (* machine.go:7813 stCase440 *) ((LCase 440), (KIf (CByte OEq 32) (KGoto (LTr 18) KNil) KNil (KIf (CAnd (CByte OGe 33) (CByte OLe 126)) (KGoto (LSt 441) KNil) KNil (KGoto (LTr 16) KNil))));
  (* machine.go:7821 st441 *) ((LSt 441), (KInc (KIf CPe (KGoto (LEofN 441) KNil) KNil KNil)));
  (* machine.go:7825 stCase441 *) ((LCase 441), (KIf (CByte OEq 32) (KGoto (LTr 18) KNil) KNil (KIf (CAnd (CByte OGe 33) (CByte OLe 126)) (KGoto (LSt 442) KNil) KNil (KGoto (LTr 16) KNil))));
  (* machine.go:7833 st442 *) ((LSt 442), (KInc (KIf CPe (KGoto (LEofN 442) KNil) KNil KNil)));
  (* machine.go:7837 stCase442 *) ((LCase 442), (KIf (CByte OEq 32) (KGoto (LTr 18) KNil) KNil (KIf (CAnd (CByte OGe 33) (CByte OLe 126)) (KGoto (LSt 443) KNil) KNil (KGoto (LTr 16) KNil))));
  (* machine.go:7845 st443 *) ((LSt 443), (KInc (KIf CPe (KGoto (LEofN 443) KNil) KNil KNil)));
  (* machine.go:7849 stCase443 *) ((LCase 443), (KIf (CByte OEq 32) (KGoto (LTr 18) KNil) KNil (KIf (CAnd (CByte OGe 33) (CByte OLe 126)) (KGoto (LSt 444) KNil) KNil (KGoto (LTr 16) KNil))));
  (* machine.go:7857 st444 *) ((LSt 444), (KInc (KIf CPe (KGoto (LEofN 444) KNil) KNil KNil)));
  (* machine.go:7861 stCase444 *) ((LCase 444), (KIf (CByte OEq 32) (KGoto (LTr 18) KNil) KNil (KIf (CAnd (CByte OGe 33) (CByte OLe 126)) (KGoto (LSt 445) KNil) KNil (KGoto (LTr 16) KNil))));
  (* machine.go:7869 st445 *) ((LSt 445), (KInc (KIf CPe (KGoto (LEofN 445) KNil) KNil KNil)));
  (* machine.go:7873 stCase445 *) ((LCase 445), (KIf (CByte OEq 32) (KGoto (LTr 18) KNil) KNil (KIf (CAnd (CByte OGe 33) (CByte OLe 126)) (KGoto (LSt 446) KNil) KNil (KGoto (LTr 16) KNil))));
  (* machine.go:7881 st446 *) ((LSt 446), (KInc (KIf CPe (KGoto (LEofN 446) KNil) KNil KNil)));
  (* machine.go:7885 stCase446 *) ((LCase 446), (KIf (CByte OEq 32) (KGoto (LTr 18) KNil) KNil (KIf (CAnd (CByte OGe 33) (CByte OLe 126)) (KGoto (LSt 447) KNil) KNil (KGoto (LTr 16) KNil))));
  (* machine.go:7893 st447 *) ((LSt 447), (KInc (KIf CPe (KGoto (LEofN 447) KNil) KNil KNil)));
  (* machine.go:7897 stCase447 *) ((LCase 447), (KIf (CByte OEq 32) (KGoto (LTr 18) KNil) KNil (KIf (CAnd (CByte OGe 33) (CByte OLe 126)) (KGoto (LSt 448) KNil) KNil (KGoto (LTr 16) KNil))));
  (* machine.go:7905 st448 *) ((LSt 448), (KInc (KIf CPe (KGoto (LEofN 448) KNil) KNil KNil)));
  (* machine.go:7909 stCase448 *) ((LCase 448), (KIf (CByte OEq 32) (KGoto (LTr 18) KNil) KNil (KIf (CAnd (CByte OGe 33) (CByte OLe 126)) (KGoto (LSt 449) KNil) KNil (KGoto (LTr 16) KNil))));
  (* machine.go:7917 st449 *) ((LSt 449), (KInc (KIf CPe (KGoto (LEofN 449) KNil) KNil KNil)));
  (* machine.go:7921 stCase449 *) ((LCase 449), (KIf (CByte OEq 32) (KGoto (LTr 18) KNil) KNil (KIf (CAnd (CByte OGe 33) (CByte OLe 126)) (KGoto (LSt 450) KNil) KNil (KGoto (LTr 16) KNil))));
  (* machine.go:7929 st450 *) ((LSt 450), (KInc (KIf CPe (KGoto (LEofN 450) KNil) KNil KNil)));
  (* machine.go:7933 stCase450 *) ((LCase 450), (KIf (CByte OEq 32) (KGoto (LTr 18) KNil) KNil (KIf (CAnd (CByte OGe 33) (CByte OLe 126)) (KGoto (LSt 451) KNil) KNil (KGoto (LTr 16) KNil))));
  (* machine.go:7941 st451 *) ((LSt 451), (KInc (KIf CPe (KGoto (LEofN 451) KNil) KNil KNil)));
  (* machine.go:7945 stCase451 *) ((LCase 451), (KIf (CByte OEq 32) (KGoto (LTr 18) KNil) KNil (KIf (CAnd (CByte OGe 33) (CByte OLe 126)) (KGoto (LSt 452) KNil) KNil (KGoto (LTr 16) KNil))))
].

(* /repo/rfc5424/machine.go *)
Definition prog5424_16 : list (label * code act cnd) := [
  (* machine.go:7953 st452 *) ((LSt 452), (KInc (KIf CPe (KGoto (LEofN 452) KNil) KNil KNil)));
  (* machine.go:7957 stCase452 *) ((LCase 452), (KIf (CByte OEq 32) (KGoto (LTr 18) KNil) KNil (KIf (CAnd (CByte OGe 33) (CByte OLe 126)) (KGoto (LSt 453) KNil) KNil (KGoto (LTr 16) KNil))));
  (* machine.go:7965 st453 *) ((LSt 453), (KInc (KIf CPe (KGoto (LEofN 453) KNil) KNil KNil)));
  (* machine.go:7969 stCase453 *) ((LCase 453), (KIf (CByte OEq 32) (KGoto (LTr 18) KNil) KNil (KIf (CAnd (CByte OGe 33) (CByte OLe 126)) (KGoto (LSt 454) KNil) KNil (KGoto (LTr 16) KNil))));
  (* machine.go:7977 st454 *) ((LSt 454), (KInc (KIf CPe (KGoto (LEofN 454) KNil) KNil KNil)));
  (* machine.go:7981 stCase454 *) ((LCase 454), (KIf (CByte OEq 32) (KGoto (LTr 18) KNil) KNil (KIf (CAnd (CByte OGe 33) (CByte OLe 126)) (KGoto (LSt 455) KNil) KNil (KGoto (LTr 16) KNil))));
  (* machine.go:7989 st455 *) ((LSt 455), (KInc (KIf CPe (KGoto (LEofN 455) KNil) KNil KNil)));
  (* machine.go:7993 stCase455 *) ((LCase 455), (KIf (CByte OEq 32) (KGoto (LTr 18) KNil) KNil (KIf (CAnd (CByte OGe 33) (CByte OLe 126)) (KGoto (LSt 456) KNil) KNil (KGoto (LTr 16) KNil))));
  (* machine.go:8001 st456 *) ((LSt 456), (KInc (KIf CPe (KGoto (LEofN 456) KNil) KNil KNil)));
  (* machine.go:8005 stCase456 *) ((LCase 456), (KIf (CByte OEq 32) (KGoto (LTr 18) KNil) KNil (KIf (CAnd (CByte OGe 33) (CByte OLe 126)) (KGoto (LSt 457) KNil) KNil (KGoto (LTr 16) KNil))));
  (* machine.go:8013 st457 *) ((LSt 457), (KInc (KIf CPe (KGoto (LEofN 457) KNil) KNil KNil)));
  (* machine.go:8017 stCase457 *) ((LCase 457), (KIf (CByte OEq 32) (KGoto (LTr 18) KNil) KNil (KIf (CAnd (CByte OGe 33) (CByte OLe 126)) (KGoto (LSt 458) KNil) KNil (KGoto (LTr 16) KNil))));
  (* machine.go:8025 st458 *) ((LSt 458), (KInc (KIf CPe (KGoto (LEofN 458) KNil) KNil KNil)));
  (* machine.go:8029 stCase458 *) ((LCase 458), (KIf (CByte OEq 32) (KGoto (LTr 18) KNil) KNil (KIf (CAnd (CByte OGe 33) (CByte OLe 126)) (KGoto (LSt 459) KNil) KNil (KGoto (LTr 16) KNil))));
  (* machine.go:8037 st459 *) ((LSt 459), (KInc (KIf CPe (KGoto (LEofN 459) KNil) KNil KNil)));
  (* machine.go:8041 stCase459 *) ((LCase 459), (KIf (CByte OEq 32) (KGoto (LTr 18) KNil) KNil (KIf (CAnd (CByte OGe 33) (CByte OLe 126)) (KGoto (LSt 460) KNil) KNil (KGoto (LTr 16) KNil))));
  (* machine.go:8049 st460 *) ((LSt 460), (KInc (KIf CPe (KGoto (LEofN 460) KNil) KNil KNil)));
  (* machine.go:8053 stCase460 *) ((LCase 460), (KIf (CByte OEq 32) (KGoto (LTr 18) KNil) KNil (KIf (CAnd (CByte OGe 33) (CByte OLe 126)) (KGoto (LSt 461) KNil) KNil (KGoto (LTr 16) KNil))));
  (* machine.go:8061 st461 *) ((LSt 461), (KInc (KIf CPe (KGoto (LEofN 461) KNil) KNil KNil)));
  (* machine.go:8065 stCase461 *) ((LCase 461), (KIf (CByte OEq 32) (KGoto (LTr 18) KNil) KNil (KIf (CAnd (CByte OGe 33) (CByte OLe 126)) (KGoto (LSt 462) KNil) KNil (KGoto (LTr 16) KNil))));
  (* machine.go:8073 st462 *) ((LSt 462), (KInc (KIf CPe (KGoto (LEofN 462) KNil) KNil KNil)));
  (* machine.go:8077 stCase462 *) ((LCase 462), (KIf (CByte OEq 32) (KGoto (LTr 18) KNil) KNil (KIf (CAnd (CByte OGe 33) (CByte OLe 126)) (KGoto (LSt 463) KNil) KNil (KGoto (LTr 16) KNil))));
  (* machine.go:8085 st463 *) ((LSt 463), (KInc (KIf CPe (KGoto (LEofN 463) KNil) KNil KNil)));
  (* machine.go:8089 stCase463 *) ((LCase 463), (KIf (CByte OEq 32) (KGoto (LTr 18) KNil) KNil (KIf (CAnd (CByte OGe 33) (CByte OLe 126)) (KGoto (LSt 464) KNil) KNil (KGoto (LTr 16) KNil))));
  (* machine.go:8097 st464 *) ((LSt 464), (KInc (KIf CPe (KGoto (LEofN 464) KNil) KNil KNil)));
  (* machine.go:8101 stCase464 *) ((LCase 464), (KIf (CByte OEq 32) (KGoto (LTr 18) KNil) KNil (KIf (CAnd (CByte OGe 33) (CByte OLe 126)) (KGoto (LSt 465) KNil) KNil (KGoto (LTr 16) KNil))));
  (* machine.go:8109 st465 *) ((LSt 465), (KInc (KIf CPe (KGoto (LEofN 465) KNil) KNil KNil)));
  (* machine.go:8113 stCase465 *) ((LCase 465), (KIf (CByte OEq 32) (KGoto (LTr 18) KNil) KNil (KIf (CAnd (CByte OGe 33) (CByte OLe 126)) (KGoto (LSt 466) KNil) KNil (KGoto (LTr 16) KNil))));
  (* machine.go:8121 st466 *) ((LSt 466), (KInc (KIf CPe (KGoto (LEofN 466) KNil) KNil KNil)));
  (* machine.go:8125 stCase466 *) ((LCase 466), (KIf (CByte OEq 32) (KGoto (LTr 18) KNil) KNil (KIf (CAnd (CByte OGe 33) (CByte OLe 126)) (KGoto (LSt 467) KNil) KNil (KGoto (LTr 16) KNil))));
  (* machine.go:8133 st467 *) ((LSt 467), (KInc (KIf CPe (KGoto (LEofN 467) KNil) KNil KNil)));
  (* machine.go:8137 stCase467 *) ((LCase 467), (KIf (CByte OEq 32) (KGoto (LTr 18) KNil) KNil (KIf (CAnd (CByte OGe 33) (CByte OLe 126)) (KGoto (LSt 468) KNil) KNil (KGoto (LTr 16) KNil))));
  (* machine.go:8145 st468 *) ((LSt 468), (KInc (KIf CPe (KGoto (LEofN 468) KNil) KNil KNil)));
  (* machine.go:8149 stCase468 *) ((LCase 468), (KIf (CByte OEq 32) (KGoto (LTr 18) KNil) KNil (KIf (CAnd (CByte OGe 33) (CByte OLe 126)) (KGoto (LSt 469) KNil) KNil (KGoto (LTr 16) KNil))));
  (* machine.go:8157 st469 *) ((LSt 469), (KInc (KIf CPe (KGoto (LEofN 469) KNil) KNil KNil)));
  (* machine.go:8161 stCase469 *) ((LCase 469), (KIf (CByte OEq 32) (KGoto (LTr 18) KNil) KNil (KIf (CAnd (CByte OGe 33) (CByte OLe 126)) (KGoto (LSt 470) KNil) KNil (KGoto (LTr 16) KNil))));
  (* machine.go:8169 st470 *) ((LSt 470), (KInc (KIf CPe (KGoto (LEofN 470) KNil) KNil KNil)));
  (* machine.go:8173 stCase470 *) ((LCase 470), (KIf (CByte OEq 32) (KGoto (LTr 18) KNil) KNil (KIf (CAnd (CByte OGe 33) (CByte OLe 126)) (KGoto (LSt 471) KNil) KNil (KGoto (LTr 16) KNil))));
  (* machine.go:8181 st471 *) ((LSt 471), (KInc (KIf CPe (KGoto (LEofN 471) KNil) KNil KNil)));
  (* machine.go:8185 stCase471 *) ((LCase 471), (KIf (CByte OEq 32) (KGoto (LTr 18) KNil) KNil (KIf (CAnd (CByte OGe 33) (CByte OLe 126)) (KGoto (LSt 472) KNil) KNil (KGoto (LTr 16) KNil))));
  (* machine.go:8193 st472 *) ((LSt 472), (KInc (KIf CPe (KGoto (LEofN 472) KNil) KNil KNil)));
  (* machine.go:8197 stCase472 *) ((LCase 472), (KIf (CByte OEq 32) (KGoto (LTr 18) KNil) KNil (KIf (CAnd (CByte OGe 33) (CByte OLe 126)) (KGoto (LSt 473) KNil) KNil (KGoto (LTr 16) KNil))));
  (* machine.go:8205 st473 *) ((LSt 473), (KInc (KIf CPe (KGoto (LEofN 473) KNil) KNil KNil)));
  (* machine.go:8209 stCase473 *) ((LCase 473), (KIf (CByte OEq 32) (KGoto (LTr 18) KNil) KNil (KIf (CAnd (CByte OGe 33) (CByte OLe 126)) (KGoto (LSt 474) KNil) KNil (KGoto (LTr 16) KNil))));
  (* machine.go:8217 st474 *) ((LSt 474), (KInc (KIf CPe (KGoto (LEofN 474) KNil) KNil KNil)));
  (* machine.go:8221 stCase474 *) ((LCase 474), (KIf (CByte OEq 32) (KGoto (LTr 18) KNil) KNil (KIf (CAnd (CByte OGe 33) (CByte OLe 126)) (KGoto (LSt 475) KNil) KNil (KGoto (LTr 16) KNil))));
  (* machine.go:8229 st475 *) ((LSt 475), (KInc (KIf CPe (KGoto (LEofN 475) KNil) KNil KNil)));
  (* machine.go:8233 stCase475 *) ((LCase 475), (KIf (CByte OEq 32) (KGoto (LTr 18) KNil) KNil (KIf (CAnd (CByte OGe 33) (CByte OLe 126)) (KGoto (LSt 476) KNil) KNil (KGoto (LTr 16) KNil))));
  (* machine.go:8241 st476 *) ((LSt 476), (KInc (KIf CPe (KGoto (LEofN 476) KNil) KNil KNil)));
  (* machine.go:8245 stCase476 *) ((LCase 476), (KIf (CByte OEq 32) (KGoto (LTr 18) KNil) KNil (KIf (CAnd (CByte OGe 33) (CByte OLe 126)) (KGoto (LSt 477) KNil) KNil (KGoto (LTr 16) KNil))));
  (* machine.go:8253 st477 *) ((LSt 477), (KInc (KIf CPe (KGoto (LEofN 477) KNil) KNil KNil)));
  (* machine.go:8257 stCase477 *) ((LCase 477), (KIf (CByte OEq 32) (KGoto (LTr 18) KNil) KNil (KIf (CAnd (CByte OGe 33) (CByte OLe 126)) (KGoto (LSt 478) KNil) KNil (KGoto (LTr 16) KNil))));
  (* machine.go:8265 st478 *) ((LSt 478), (KInc (KIf CPe (KGoto (LEofN 478) KNil) KNil KNil)));
  (* machine.go:8269 stCase478 *) ((LCase 478), (KIf (CByte OEq 32) (KGoto (LTr 18) KNil) KNil (KIf (CAnd (CByte OGe 33) (CByte OLe 126)) (KGoto (LSt 479) KNil) KNil (KGoto (LTr 16) KNil))));
  (* machine.go:8277 st479 *) ((LSt 479), (KInc (KIf CPe (KGoto (LEofN 479) KNil) KNil KNil)));
  (* machine.go:8281 stCase479 *) ((LCase 479), (KIf (CByte OEq 32) (KGoto (LTr 18) KNil) KNil (KIf (CAnd (CByte OGe 33) (CByte OLe 126)) (KGoto (LSt 480) KNil) KNil (KGoto (LTr 16) KNil))));
  (* machine.go:8289 st480 *) ((LSt 480), (KInc (KIf CPe (KGoto (LEofN 480) KNil) KNil KNil)));
  (* machine.go:8293 stCase480 *) ((LCase 480), (KIf (CByte OEq 32) (KGoto (LTr 18) KNil) KNil (KIf (CAnd (CByte OGe 33) (CByte OLe 126)) (KGoto (LSt 481) KNil) KNil (KGoto (LTr 16) KNil))));
  (* machine.go:8301 st481 *) ((LSt 481), (KInc (KIf CPe (KGoto (LEofN 481) KNil) KNil KNil)));
  (* machine.go:8305 stCase481 *) ((LCase 481), (KIf (CByte OEq 32) (KGoto (LTr 18) KNil) KNil (KIf (CAnd (CByte OGe 33) (CByte OLe 126)) (KGoto (LSt 482) KNil) KNil (KGoto (LTr 16) KNil))))
].

(* /repo/rfc5424/machine.go *)
Definition prog5424_17 : list (label * code act cnd) := [
  (* machine.go:8313 st482 *) ((LSt 482), (KInc (KIf CPe (KGoto (LEofN 482) KNil) KNil KNil)));
  (* machine.go:8317 stCase482 *) ((LCase 482), (KIf (CByte OEq 32) (KGoto (LTr 18) KNil) KNil (KIf (CAnd (CByte OGe 33) (CByte OLe 126)) (KGoto (LSt 483) KNil) KNil (KGoto (LTr 16) KNil))));
  (* machine.go:8325 st483 *) ((LSt 483), (KInc (KIf CPe (KGoto (LEofN 483) KNil) KNil KNil)));
  (* machine.go:8329 stCase483 *) ((LCase 483), (KIf (CByte OEq 32) (KGoto (LTr 18) KNil) KNil (KIf (CAnd (CByte OGe 33) (CByte OLe 126)) (KGoto (LSt 484) KNil) KNil (KGoto (LTr 16) KNil))));
  (* machine.go:8337 st484 *) ((LSt 484), (KInc (KIf CPe (KGoto (LEofN 484) KNil) KNil KNil)));
  (* machine.go:8341 stCase484 *) ((LCase 484), (KIf (CByte OEq 32) (KGoto (LTr 18) KNil) KNil (KIf (CAnd (CByte OGe 33) (CByte OLe 126)) (KGoto (LSt 485) KNil) KNil (KGoto (LTr 16) KNil))));
  (* machine.go:8349 st485 *) ((LSt 485), (KInc (KIf CPe (KGoto (LEofN 485) KNil) KNil KNil)));
  (* machine.go:8353 stCase485 *) ((LCase 485), (KIf (CByte OEq 32) (KGoto (LTr 18) KNil) KNil (KIf (CAnd (CByte OGe 33) (CByte OLe 126)) (KGoto (LSt 486) KNil) KNil (KGoto (LTr 16) KNil))));
  (* machine.go:8361 st486 *) ((LSt 486), (KInc (KIf CPe (KGoto (LEofN 486) KNil) KNil KNil)));
  (* machine.go:8365 stCase486 *) ((LCase 486), (KIf (CByte OEq 32) (KGoto (LTr 18) KNil) KNil (KIf (CAnd (CByte OGe 33) (CByte OLe 126)) (KGoto (LSt 487) KNil) KNil (KGoto (LTr 16) KNil))));
  (* machine.go:8373 st487 *) ((LSt 487), (KInc (KIf CPe (KGoto (LEofN 487) KNil) KNil KNil)));
  (* machine.go:8377 stCase487 *) ((LCase 487), (KIf (CByte OEq 32) (KGoto (LTr 18) KNil) KNil (KIf (CAnd (CByte OGe 33) (CByte OLe 126)) (KGoto (LSt 488) KNil) KNil (KGoto (LTr 16) KNil))));
  (* machine.go:8385 st488 *) ((LSt 488), (KInc (KIf CPe (KGoto (LEofN 488) KNil) KNil KNil)));
  (* machine.go:8389 stCase488 *) ((LCase 488), (KIf (CByte OEq 32) (KGoto (LTr 18) KNil) KNil (KIf (CAnd (CByte OGe 33) (CByte OLe 126)) (KGoto (LSt 489) KNil) KNil (KGoto (LTr 16) KNil))));
  (* machine.go:8397 st489 *) ((LSt 489), (KInc (KIf CPe (KGoto (LEofN 489) KNil) KNil KNil)));
  (* machine.go:8401 stCase489 *) ((LCase 489), (KIf (CByte OEq 32) (KGoto (LTr 18) KNil) KNil (KIf (CAnd (CByte OGe 33) (CByte OLe 126)) (KGoto (LSt 490) KNil) KNil (KGoto (LTr 16) KNil))));
  (* machine.go:8409 st490 *) ((LSt 490), (KInc (KIf CPe (KGoto (LEofN 490) KNil) KNil KNil)));
  (* machine.go:8413 stCase490 *) ((LCase 490), (KIf (CByte OEq 32) (KGoto (LTr 18) KNil) KNil (KIf (CAnd (CByte OGe 33) (CByte OLe 126)) (KGoto (LSt 491) KNil) KNil (KGoto (LTr 16) KNil))));
  (* machine.go:8421 st491 *) ((LSt 491), (KInc (KIf CPe (KGoto (LEofN 491) KNil) KNil KNil)));
  (* machine.go:8425 stCase491 *) ((LCase 491), (KIf (CByte OEq 32) (KGoto (LTr 18) KNil) KNil (KIf (CAnd (CByte OGe 33) (CByte OLe 126)) (KGoto (LSt 492) KNil) KNil (KGoto (LTr 16) KNil))));
  (* machine.go:8433 st492 *) ((LSt 492), (KInc (KIf CPe (KGoto (LEofN 492) KNil) KNil KNil)));
  (* machine.go:8437 stCase492 *) ((LCase 492), (KIf (CByte OEq 32) (KGoto (LTr 18) KNil) KNil (KIf (CAnd (CByte OGe 33) (CByte OLe 126)) (KGoto (LSt 493) KNil) KNil (KGoto (LTr 16) KNil))));
  (* machine.go:8445 st493 *) ((LSt 493), (KInc (KIf CPe (KGoto (LEofN 493) KNil) KNil KNil)));
  (* machine.go:8449 stCase493 *) ((LCase 493), (KIf (CByte OEq 32) (KGoto (LTr 18) KNil) KNil (KIf (CAnd (CByte OGe 33) (CByte OLe 126)) (KGoto (LSt 494) KNil) KNil (KGoto (LTr 16) KNil))));
  (* machine.go:8457 st494 *) ((LSt 494), (KInc (KIf CPe (KGoto (LEofN 494) KNil) KNil KNil)));
  (* machine.go:8461 stCase494 *) ((LCase 494), (KIf (CByte OEq 32) (KGoto (LTr 18) KNil) KNil (KIf (CAnd (CByte OGe 33) (CByte OLe 126)) (KGoto (LSt 495) KNil) KNil (KGoto (LTr 16) KNil))));
  (* machine.go:8469 st495 *) ((LSt 495), (KInc (KIf CPe (KGoto (LEofN 495) KNil) KNil KNil)));
  (* machine.go:8473 stCase495 *) ((LCase 495), (KIf (CByte OEq 32) (KGoto (LTr 18) KNil) KNil (KIf (CAnd (CByte OGe 33) (CByte OLe 126)) (KGoto (LSt 496) KNil) KNil (KGoto (LTr 16) KNil))));
  (* machine.go:8481 st496 *) ((LSt 496), (KInc (KIf CPe (KGoto (LEofN 496) KNil) KNil KNil)));
  (* machine.go:8485 stCase496 *) ((LCase 496), (KIf (CByte OEq 32) (KGoto (LTr 18) KNil) KNil (KIf (CAnd (CByte OGe 33) (CByte OLe 126)) (KGoto (LSt 497) KNil) KNil (KGoto (LTr 16) KNil))));
  (* machine.go:8493 st497 *) ((LSt 497), (KInc (KIf CPe (KGoto (LEofN 497) KNil) KNil KNil)));
  (* machine.go:8497 stCase497 *) ((LCase 497), (KIf (CByte OEq 32) (KGoto (LTr 18) KNil) KNil (KIf (CAnd (CByte OGe 33) (CByte OLe 126)) (KGoto (LSt 498) KNil) KNil (KGoto (LTr 16) KNil))));
  (* machine.go:8505 st498 *) ((LSt 498), (KInc (KIf CPe (KGoto (LEofN 498) KNil) KNil KNil)));
  (* machine.go:8509 stCase498 *) ((LCase 498), (KIf (CByte OEq 32) (KGoto (LTr 18) KNil) KNil (KIf (CAnd (CByte OGe 33) (CByte OLe 126)) (KGoto (LSt 499) KNil) KNil (KGoto (LTr 16) KNil))));
  (* machine.go:8517 st499 *) ((LSt 499), (KInc (KIf CPe (KGoto (LEofN 499) KNil) KNil KNil)));
  (* machine.go:8521 stCase499 *) ((LCase 499), (KIf (CByte OEq 32) (KGoto (LTr 18) KNil) KNil (KIf (CAnd (CByte OGe 33) (CByte OLe 126)) (KGoto (LSt 500) KNil) KNil (KGoto (LTr 16) KNil))));
  (* machine.go:8529 st500 *) ((LSt 500), (KInc (KIf CPe (KGoto (LEofN 500) KNil) KNil KNil)));
  (* machine.go:8533 stCase500 *) ((LCase 500), (KIf (CByte OEq 32) (KGoto (LTr 18) KNil) KNil (KIf (CAnd (CByte OGe 33) (CByte OLe 126)) (KGoto (LSt 501) KNil) KNil (KGoto (LTr 16) KNil))));
  (* machine.go:8541 st501 *) ((LSt 501), (KInc (KIf CPe (KGoto (LEofN 501) KNil) KNil KNil)));
  (* machine.go:8545 stCase501 *) ((LCase 501), (KIf (CByte OEq 32) (KGoto (LTr 18) KNil) KNil (KIf (CAnd (CByte OGe 33) (CByte OLe 126)) (KGoto (LSt 502) KNil) KNil (KGoto (LTr 16) KNil))));
  (* machine.go:8553 st502 *) ((LSt 502), (KInc (KIf CPe (KGoto (LEofN 502) KNil) KNil KNil)));
  (* machine.go:8557 stCase502 *) ((LCase 502), (KIf (CByte OEq 32) (KGoto (LTr 18) KNil) KNil (KIf (CAnd (CByte OGe 33) (CByte OLe 126)) (KGoto (LSt 503) KNil) KNil (KGoto (LTr 16) KNil))));
  (* machine.go:8565 st503 *) ((LSt 503), (KInc (KIf CPe (KGoto (LEofN 503) KNil) KNil KNil)));
  (* machine.go:8569 stCase503 *) ((LCase 503), (KIf (CByte OEq 32) (KGoto (LTr 18) KNil) KNil (KIf (CAnd (CByte OGe 33) (CByte OLe 126)) (KGoto (LSt 504) KNil) KNil (KGoto (LTr 16) KNil))));
  (* machine.go:8577 st504 *) ((LSt 504), (KInc (KIf CPe (KGoto (LEofN 504) KNil) KNil KNil)));
  (* machine.go:8581 stCase504 *) ((LCase 504), (KIf (CByte OEq 32) (KGoto (LTr 18) KNil) KNil (KIf (CAnd (CByte OGe 33) (CByte OLe 126)) (KGoto (LSt 505) KNil) KNil (KGoto (LTr 16) KNil))));
  (* machine.go:8589 st505 *) ((LSt 505), (KInc (KIf CPe (KGoto (LEofN 505) KNil) KNil KNil)));
  (* machine.go:8593 stCase505 *) ((LCase 505), (KIf (CByte OEq 32) (KGoto (LTr 18) KNil) KNil (KIf (CAnd (CByte OGe 33) (CByte OLe 126)) (KGoto (LSt 506) KNil) KNil (KGoto (LTr 16) KNil))));
  (* machine.go:8601 st506 *) ((LSt 506), (KInc (KIf CPe (KGoto (LEofN 506) KNil) KNil KNil)));
  (* machine.go:8605 stCase506 *) ((LCase 506), (KIf (CByte OEq 32) (KGoto (LTr 18) KNil) KNil (KIf (CAnd (CByte OGe 33) (CByte OLe 126)) (KGoto (LSt 507) KNil) KNil (KGoto (LTr 16) KNil))));
  (* machine.go:8613 st507 *) ((LSt 507), (KInc (KIf CPe (KGoto (LEofN 507) KNil) KNil KNil)));
  (* machine.go:8617 stCase507 *) ((LCase 507), (KIf (CByte OEq 32) (KGoto (LTr 18) KNil) KNil (KIf (CAnd (CByte OGe 33) (CByte OLe 126)) (KGoto (LSt 508) KNil) KNil (KGoto (LTr 16) KNil))));
  (* machine.go:8625 st508 *) ((LSt 508), (KInc (KIf CPe (KGoto (LEofN 508) KNil) KNil KNil)));
  (* machine.go:8629 stCase508 *) ((LCase 508), (KIf (CByte OEq 32) (KGoto (LTr 18) KNil) KNil (KIf (CAnd (CByte OGe 33) (CByte OLe 126)) (KGoto (LSt 509) KNil) KNil (KGoto (LTr 16) KNil))));
  (* machine.go:8637 st509 *) ((LSt 509), (KInc (KIf CPe (KGoto (LEofN 509) KNil) KNil KNil)));
  (* machine.go:8641 stCase509 *) ((LCase 509), (KIf (CByte OEq 32) (KGoto (LTr 18) KNil) KNil (KIf (CAnd (CByte OGe 33) (CByte OLe 126)) (KGoto (LSt 510) KNil) KNil (KGoto (LTr 16) KNil))));
  (* machine.go:8649 st510 *) ((LSt 510), (KInc (KIf CPe (KGoto (LEofN 510) KNil) KNil KNil)));
  (* machine.go:8653 stCase510 *) ((LCase 510), (KIf (CByte OEq 32) (KGoto (LTr 18) KNil) KNil (KIf (CAnd (CByte OGe 33) (CByte OLe 126)) (KGoto (LSt 511) KNil) KNil (KGoto (LTr 16) KNil))));
  (* machine.go:8661 st511 *) ((LSt 511), (KInc (KIf CPe (KGoto (LEofN 511) KNil) KNil KNil)));
  (* machine.go:8665 stCase511 *) ((LCase 511), (KIf (CByte OEq 32) (KGoto (LTr 18) KNil) KNil (KIf (CAnd (CByte OGe 33) (CByte OLe 126)) (KGoto (LSt 512) KNil) KNil (KGoto (LTr 16) KNil))))
].

(* /repo/rfc5424/machine.go *)
Definition prog5424_18 : list (label * code act cnd) := [
  (* machine.go:8673 st512 *) ((LSt 512), (KInc (KIf CPe (KGoto (LEofN 512) KNil) KNil KNil)));
  (* machine.go:8677 stCase512 *) ((LCase 512), (KIf (CByte OEq 32) (KGoto (LTr 18) KNil) KNil (KIf (CAnd (CByte OGe 33) (CByte OLe 126)) (KGoto (LSt 513) KNil) KNil (KGoto (LTr 16) KNil))));
  (* machine.go:8685 st513 *) ((LSt 513), (KInc (KIf CPe (KGoto (LEofN 513) KNil) KNil KNil)));
  (* machine.go:8689 stCase513 *) ((LCase 513), (KIf (CByte OEq 32) (KGoto (LTr 18) KNil) KNil (KIf (CAnd (CByte OGe 33) (CByte OLe 126)) (KGoto (LSt 514) KNil) KNil (KGoto (LTr 16) KNil))));
  (* machine.go:8697 st514 *) ((LSt 514), (KInc (KIf CPe (KGoto (LEofN 514) KNil) KNil KNil)));
  (* machine.go:8701 stCase514 *) ((LCase 514), (KIf (CByte OEq 32) (KGoto (LTr 18) KNil) KNil (KIf (CAnd (CByte OGe 33) (CByte OLe 126)) (KGoto (LSt 515) KNil) KNil (KGoto (LTr 16) KNil))));
  (* machine.go:8709 st515 *) ((LSt 515), (KInc (KIf CPe (KGoto (LEofN 515) KNil) KNil KNil)));
  (* machine.go:8713 stCase515 *) ((LCase 515), (KIf (CByte OEq 32) (KGoto (LTr 18) KNil) KNil (KIf (CAnd (CByte OGe 33) (CByte OLe 126)) (KGoto (LSt 516) KNil) KNil (KGoto (LTr 16) KNil))));
  (* machine.go:8721 st516 *) ((LSt 516), (KInc (KIf CPe (KGoto (LEofN 516) KNil) KNil KNil)));
  (* machine.go:8725 stCase516 *) ((LCase 516), (KIf (CByte OEq 32) (KGoto (LTr 18) KNil) KNil (KIf (CAnd (CByte OGe 33) (CByte OLe 126)) (KGoto (LSt 517) KNil) KNil (KGoto (LTr 16) KNil))));
  (* machine.go:8733 st517 *) ((LSt 517), (KInc (KIf CPe (KGoto (LEofN 517) KNil) KNil KNil)));
  (* machine.go:8737 stCase517 *) ((LCase 517), (KIf (CByte OEq 32) (KGoto (LTr 18) KNil) KNil (KIf (CAnd (CByte OGe 33) (CByte OLe 126)) (KGoto (LSt 518) KNil) KNil (KGoto (LTr 16) KNil))));
  (* machine.go:8745 st518 *) ((LSt 518), (KInc (KIf CPe (KGoto (LEofN 518) KNil) KNil KNil)));
  (* machine.go:8749 stCase518 *) ((LCase 518), (KIf (CByte OEq 32) (KGoto (LTr 18) KNil) KNil (KIf (CAnd (CByte OGe 33) (CByte OLe 126)) (KGoto (LSt 519) KNil) KNil (KGoto (LTr 16) KNil))));
  (* machine.go:8757 st519 *) ((LSt 519), (KInc (KIf CPe (KGoto (LEofN 519) KNil) KNil KNil)));
  (* machine.go:8761 stCase519 *) ((LCase 519), (KIf (CByte OEq 32) (KGoto (LTr 18) KNil) KNil (KIf (CAnd (CByte OGe 33) (CByte OLe 126)) (KGoto (LSt 520) KNil) KNil (KGoto (LTr 16) KNil))));
  (* machine.go:8769 st520 *) ((LSt 520), (KInc (KIf CPe (KGoto (LEofN 520) KNil) KNil KNil)));
  (* machine.go:8773 stCase520 *) ((LCase 520), (KIf (CByte OEq 32) (KGoto (LTr 18) KNil) KNil (KIf (CAnd (CByte OGe 33) (CByte OLe 126)) (KGoto (LSt 521) KNil) KNil (KGoto (LTr 16) KNil))));
  (* machine.go:8781 st521 *) ((LSt 521), (KInc (KIf CPe (KGoto (LEofN 521) KNil) KNil KNil)));
  (* machine.go:8785 stCase521 *) ((LCase 521), (KIf (CByte OEq 32) (KGoto (LTr 18) KNil) KNil (KIf (CAnd (CByte OGe 33) (CByte OLe 126)) (KGoto (LSt 522) KNil) KNil (KGoto (LTr 16) KNil))));
  (* machine.go:8793 st522 *) ((LSt 522), (KInc (KIf CPe (KGoto (LEofN 522) KNil) KNil KNil)));
  (* machine.go:8797 stCase522 *) ((LCase 522), (KIf (CByte OEq 32) (KGoto (LTr 18) KNil) KNil (KIf (CAnd (CByte OGe 33) (CByte OLe 126)) (KGoto (LSt 523) KNil) KNil (KGoto (LTr 16) KNil))));
  (* machine.go:8805 st523 *) ((LSt 523), (KInc (KIf CPe (KGoto (LEofN 523) KNil) KNil KNil)));
  (* machine.go:8809 stCase523 *) ((LCase 523), (KIf (CByte OEq 32) (KGoto (LTr 18) KNil) KNil (KIf (CAnd (CByte OGe 33) (CByte OLe 126)) (KGoto (LSt 524) KNil) KNil (KGoto (LTr 16) KNil))));
  (* machine.go:8817 st524 *) ((LSt 524), (KInc (KIf CPe (KGoto (LEofN 524) KNil) KNil KNil)));
  (* machine.go:8821 stCase524 *) ((LCase 524), (KIf (CByte OEq 32) (KGoto (LTr 18) KNil) KNil (KIf (CAnd (CByte OGe 33) (CByte OLe 126)) (KGoto (LSt 525) KNil) KNil (KGoto (LTr 16) KNil))));
  (* machine.go:8829 st525 *) ((LSt 525), (KInc (KIf CPe (KGoto (LEofN 525) KNil) KNil KNil)));
  (* machine.go:8833 stCase525 *) ((LCase 525), (KIf (CByte OEq 32) (KGoto (LTr 18) KNil) KNil (KIf (CAnd (CByte OGe 33) (CByte OLe 126)) (KGoto (LSt 526) KNil) KNil (KGoto (LTr 16) KNil))));
  (* machine.go:8841 st526 *) ((LSt 526), (KInc (KIf CPe (KGoto (LEofN 526) KNil) KNil KNil)));
  (* machine.go:8845 stCase526 *) ((LCase 526), (KIf (CByte OEq 32) (KGoto (LTr 18) KNil) KNil (KIf (CAnd (CByte OGe 33) (CByte OLe 126)) (KGoto (LSt 527) KNil) KNil (KGoto (LTr 16) KNil))));
  (* machine.go:8853 st527 *) ((LSt 527), (KInc (KIf CPe (KGoto (LEofN 527) KNil) KNil KNil)));
  (* machine.go:8857 stCase527 *) ((LCase 527), (KIf (CByte OEq 32) (KGoto (LTr 18) KNil) KNil (KIf (CAnd (CByte OGe 33) (CByte OLe 126)) (KGoto (LSt 528) KNil) KNil (KGoto (LTr 16) KNil))));
  (* machine.go:8865 st528 *) ((LSt 528), (KInc (KIf CPe (KGoto (LEofN 528) KNil) KNil KNil)));
  (* machine.go:8869 stCase528 *) ((LCase 528), (KIf (CByte OEq 32) (KGoto (LTr 18) KNil) KNil (KIf (CAnd (CByte OGe 33) (CByte OLe 126)) (KGoto (LSt 529) KNil) KNil (KGoto (LTr 16) KNil))));
  (* machine.go:8877 st529 *) ((LSt 529), (KInc (KIf CPe (KGoto (LEofN 529) KNil) KNil KNil)));
  (* machine.go:8881 stCase529 *) ((LCase 529), (KIf (CByte OEq 32) (KGoto (LTr 18) KNil) KNil (KIf (CAnd (CByte OGe 33) (CByte OLe 126)) (KGoto (LSt 530) KNil) KNil (KGoto (LTr 16) KNil))));
  (* machine.go:8889 st530 *) ((LSt 530), (KInc (KIf CPe (KGoto (LEofN 530) KNil) KNil KNil)));
  (* machine.go:8893 stCase530 *) ((LCase 530), (KIf (CByte OEq 32) (KGoto (LTr 18) KNil) KNil (KIf (CAnd (CByte OGe 33) (CByte OLe 126)) (KGoto (LSt 531) KNil) KNil (KGoto (LTr 16) KNil))));
  (* machine.go:8901 st531 *) ((LSt 531), (KInc (KIf CPe (KGoto (LEofN 531) KNil) KNil KNil)));
  (* machine.go:8905 stCase531 *) ((LCase 531), (KIf (CByte OEq 32) (KGoto (LTr 18) KNil) KNil (KIf (CAnd (CByte OGe 33) (CByte OLe 126)) (KGoto (LSt 532) KNil) KNil (KGoto (LTr 16) KNil))));
  (* machine.go:8913 st532 *) ((LSt 532), (KInc (KIf CPe (KGoto (LEofN 532) KNil) KNil KNil)));
  (* machine.go:8917 stCase532 *) ((LCase 532), (KIf (CByte OEq 32) (KGoto (LTr 18) KNil) KNil (KIf (CAnd (CByte OGe 33) (CByte OLe 126)) (KGoto (LSt 533) KNil) KNil (KGoto (LTr 16) KNil))));
  (* machine.go:8925 st533 *) ((LSt 533), (KInc (KIf CPe (KGoto (LEofN 533) KNil) KNil KNil)));
  (* machine.go:8929 stCase533 *) ((LCase 533), (KIf (CByte OEq 32) (KGoto (LTr 18) KNil) KNil (KIf (CAnd (CByte OGe 33) (CByte OLe 126)) (KGoto (LSt 534) KNil) KNil (KGoto (LTr 16) KNil))));
  (* machine.go:8937 st534 *) ((LSt 534), (KInc (KIf CPe (KGoto (LEofN 534) KNil) KNil KNil)));
  (* machine.go:8941 stCase534 *) ((LCase 534), (KIf (CByte OEq 32) (KGoto (LTr 18) KNil) KNil (KIf (CAnd (CByte OGe 33) (CByte OLe 126)) (KGoto (LSt 535) KNil) KNil (KGoto (LTr 16) KNil))));
  (* machine.go:8949 st535 *) ((LSt 535), (KInc (KIf CPe (KGoto (LEofN 535) KNil) KNil KNil)));
  (* machine.go:8953 stCase535 *) ((LCase 535), (KIf (CByte OEq 32) (KGoto (LTr 18) KNil) KNil (KIf (CAnd (CByte OGe 33) (CByte OLe 126)) (KGoto (LSt 536) KNil) KNil (KGoto (LTr 16) KNil))));
  (* machine.go:8961 st536 *) ((LSt 536), (KInc (KIf CPe (KGoto (LEofN 536) KNil) KNil KNil)));
  (* machine.go:8965 stCase536 *) ((LCase 536), (KIf (CByte OEq 32) (KGoto (LTr 18) KNil) KNil (KIf (CAnd (CByte OGe 33) (CByte OLe 126)) (KGoto (LSt 537) KNil) KNil (KGoto (LTr 16) KNil))));
  (* machine.go:8973 st537 *) ((LSt 537), (KInc (KIf CPe (KGoto (LEofN 537) KNil) KNil KNil)));
  (* machine.go:8977 stCase537 *) ((LCase 537), (KIf (CByte OEq 32) (KGoto (LTr 18) KNil) KNil (KIf (CAnd (CByte OGe 33) (CByte OLe 126)) (KGoto (LSt 538) KNil) KNil (KGoto (LTr 16) KNil))));
  (* machine.go:8985 st538 *) ((LSt 538), (KInc (KIf CPe (KGoto (LEofN 538) KNil) KNil KNil)));
  (* machine.go:8989 stCase538 *) ((LCase 538), (KIf (CByte OEq 32) (KGoto (LTr 18) KNil) KNil (KIf (CAnd (CByte OGe 33) (CByte OLe 126)) (KGoto (LSt 539) KNil) KNil (KGoto (LTr 16) KNil))));
  (* machine.go:8997 st539 *) ((LSt 539), (KInc (KIf CPe (KGoto (LEofN 539) KNil) KNil KNil)));
  (* machine.go:9001 stCase539 *) ((LCase 539), (KIf (CByte OEq 32) (KGoto (LTr 18) KNil) KNil (KIf (CAnd (CByte OGe 33) (CByte OLe 126)) (KGoto (LSt 540) KNil) KNil (KGoto (LTr 16) KNil))));
  (* machine.go:9009 st540 *) ((LSt 540), (KInc (KIf CPe (KGoto (LEofN 540) KNil) KNil KNil)));
  (* machine.go:9013 stCase540 *) ((LCase 540), (KIf (CByte OEq 32) (KGoto (LTr 18) KNil) KNil (KIf (CAnd (CByte OGe 33) (CByte OLe 126)) (KGoto (LSt 541) KNil) KNil (KGoto (LTr 16) KNil))));
  (* machine.go:9021 st541 *) ((LSt 541), (KInc (KIf CPe (KGoto (LEofN 541) KNil) KNil KNil)));
  (* machine.go:9025 stCase541 *) ((LCase 541), (KIf (CByte OEq 32) (KGoto (LTr 18) KNil) KNil (KIf (CAnd (CByte OGe 33) (CByte OLe 126)) (KGoto (LSt 542) KNil) KNil (KGoto (LTr 16) KNil))))
].

(* /repo/rfc5424/machine.go *)
Definition prog5424_19 : list (label * code act cnd) := [
  (* machine.go:9033 st542 *) ((LSt 542), (KInc (KIf CPe (KGoto (LEofN 542) KNil) KNil KNil)));
  (* machine.go:9037 stCase542 *) ((LCase 542), (KIf (CByte OEq 32) (KGoto (LTr 18) KNil) KNil (KIf (CAnd (CByte OGe 33) (CByte OLe 126)) (KGoto (LSt 543) KNil) KNil (KGoto (LTr 16) KNil))));
  (* machine.go:9045 st543 *) ((LSt 543), (KInc (KIf CPe (KGoto (LEofN 543) KNil) KNil KNil)));
  (* machine.go:9049 stCase543 *) ((LCase 543), (KIf (CByte OEq 32) (KGoto (LTr 18) KNil) KNil (KIf (CAnd (CByte OGe 33) (CByte OLe 126)) (KGoto (LSt 544) KNil) KNil (KGoto (LTr 16) KNil))));
  (* machine.go:9057 st544 *) ((LSt 544), (KInc (KIf CPe (KGoto (LEofN 544) KNil) KNil KNil)));
  (* machine.go:9061 stCase544 *) ((LCase 544), (KIf (CByte OEq 32) (KGoto (LTr 18) KNil) KNil (KIf (CAnd (CByte OGe 33) (CByte OLe 126)) (KGoto (LSt 545) KNil) KNil (KGoto (LTr 16) KNil))));
  (* machine.go:9069 st545 *) ((LSt 545), (KInc (KIf CPe (KGoto (LEofN 545) KNil) KNil KNil)));
  (* machine.go:9073 stCase545 *) ((LCase 545), (KIf (CByte OEq 32) (KGoto (LTr 18) KNil) KNil (KIf (CAnd (CByte OGe 33) (CByte OLe 126)) (KGoto (LSt 546) KNil) KNil (KGoto (LTr 16) KNil))));
  (* machine.go:9081 st546 *) ((LSt 546), (KInc (KIf CPe (KGoto (LEofN 546) KNil) KNil KNil)));
  (* machine.go:9085 stCase546 *) ((LCase 546), (KIf (CByte OEq 32) (KGoto (LTr 18) KNil) KNil (KIf (CAnd (CByte OGe 33) (CByte OLe 126)) (KGoto (LSt 547) KNil) KNil (KGoto (LTr 16) KNil))));
  (* machine.go:9093 st547 *) ((LSt 547), (KInc (KIf CPe (KGoto (LEofN 547) KNil) KNil KNil)));
  (* machine.go:9097 stCase547 *) ((LCase 547), (KIf (CByte OEq 32) (KGoto (LTr 18) KNil) KNil (KIf (CAnd (CByte OGe 33) (CByte OLe 126)) (KGoto (LSt 548) KNil) KNil (KGoto (LTr 16) KNil))));
  (* machine.go:9105 st548 *) ((LSt 548), (KInc (KIf CPe (KGoto (LEofN 548) KNil) KNil KNil)));
  (* machine.go:9109 stCase548 *) ((LCase 548), (KIf (CByte OEq 32) (KGoto (LTr 18) KNil) KNil (KIf (CAnd (CByte OGe 33) (CByte OLe 126)) (KGoto (LSt 549) KNil) KNil (KGoto (LTr 16) KNil))));
  (* machine.go:9117 st549 *) ((LSt 549), (KInc (KIf CPe (KGoto (LEofN 549) KNil) KNil KNil)));
  (* machine.go:9121 stCase549 *) ((LCase 549), (KIf (CByte OEq 32) (KGoto (LTr 18) KNil) KNil (KIf (CAnd (CByte OGe 33) (CByte OLe 126)) (KGoto (LSt 550) KNil) KNil (KGoto (LTr 16) KNil))));
  (* machine.go:9129 st550 *) ((LSt 550), (KInc (KIf CPe (KGoto (LEofN 550) KNil) KNil KNil)));
  (* machine.go:9133 stCase550 *) ((LCase 550), (KIf (CByte OEq 32) (KGoto (LTr 18) KNil) KNil (KIf (CAnd (CByte OGe 33) (CByte OLe 126)) (KGoto (LSt 551) KNil) KNil (KGoto (LTr 16) KNil))));
  (* machine.go:9141 st551 *) ((LSt 551), (KInc (KIf CPe (KGoto (LEofN 551) KNil) KNil KNil)));
  (* machine.go:9145 stCase551 *) ((LCase 551), (KIf (CByte OEq 32) (KGoto (LTr 18) KNil) KNil (KIf (CAnd (CByte OGe 33) (CByte OLe 126)) (KGoto (LSt 552) KNil) KNil (KGoto (LTr 16) KNil))));
  (* machine.go:9153 st552 *) ((LSt 552), (KInc (KIf CPe (KGoto (LEofN 552) KNil) KNil KNil)));
  (* machine.go:9157 stCase552 *) ((LCase 552), (KIf (CByte OEq 32) (KGoto (LTr 18) KNil) KNil (KIf (CAnd (CByte OGe 33) (CByte OLe 126)) (KGoto (LSt 553) KNil) KNil (KGoto (LTr 16) KNil))));
  (* machine.go:9165 st553 *) ((LSt 553), (KInc (KIf CPe (KGoto (LEofN 553) KNil) KNil KNil)));
  (* machine.go:9169 stCase553 *) ((LCase 553), (KIf (CByte OEq 32) (KGoto (LTr 18) KNil) KNil (KGoto (LTr 16) KNil)));
  (* machine.go:9174 tr14 *) ((LTr 14), (KAct APb (KGoto (LSt 554) KNil)));
  (* machine.go:9179 st554 *) ((LSt 554), (KInc (KIf CPe (KGoto (LEofN 554) KNil) KNil KNil)));
  (* machine.go:9183 stCase554 *) ((LCase 554), (KIf (CAnd (CByte OGe 48) (CByte OLe 57)) (KGoto (LSt 555) KNil) KNil (KGoto (LTr 12) KNil)));
  (* machine.go:9188 st555 *) ((LSt 555), (KInc (KIf CPe (KGoto (LEofN 555) KNil) KNil KNil)));
  (* machine.go:9192 stCase555 *) ((LCase 555), (KIf (CAnd (CByte OGe 48) (CByte OLe 57)) (KGoto (LSt 556) KNil) KNil (KGoto (LTr 12) KNil)));
  (* machine.go:9197 st556 *) ((LSt 556), (KInc (KIf CPe (KGoto (LEofN 556) KNil) KNil KNil)));
  (* machine.go:9201 stCase556 *) ((LCase 556), (KIf (CAnd (CByte OGe 48) (CByte OLe 57)) (KGoto (LSt 557) KNil) KNil (KGoto (LTr 12) KNil)));
  (* machine.go:9206 st557 *) ((LSt 557), (KInc (KIf CPe (KGoto (LEofN 557) KNil) KNil KNil)));
  (* machine.go:9210 stCase557 *) ((LCase 557), (KIf (CByte OEq 45) (KGoto (LSt 558) KNil) KNil (KGoto (LTr 12) KNil)));
  (* machine.go:9215 st558 *) ((LSt 558), (KInc (KIf CPe (KGoto (LEofN 558) KNil) KNil KNil)));
  (* machine.go:9219 stCase558 *) ((LCase 558), (KBlk (KIf (CByte OEq 48) (KGoto (LSt 559) KNil) (KIf (CByte OEq 49) (KGoto (LSt 590) KNil) KNil KNil) KNil) (KGoto (LTr 12) KNil)));
  (* machine.go:9227 st559 *) ((LSt 559), (KInc (KIf CPe (KGoto (LEofN 559) KNil) KNil KNil)));
  (* machine.go:9231 stCase559 *) ((LCase 559), (KIf (CAnd (CByte OGe 49) (CByte OLe 57)) (KGoto (LSt 560) KNil) KNil (KGoto (LTr 12) KNil)));
  (* machine.go:9236 st560 *) ((LSt 560), (KInc (KIf CPe (KGoto (LEofN 560) KNil) KNil KNil)));
  (* machine.go:9240 stCase560 *) ((LCase 560), (KIf (CByte OEq 45) (KGoto (LSt 561) KNil) KNil (KGoto (LTr 12) KNil)));
  (* machine.go:9245 st561 *) ((LSt 561), (KInc (KIf CPe (KGoto (LEofN 561) KNil) KNil KNil)));
  (* machine.go:9249 stCase561 *) ((LCase 561), (KBlk (KIf (CByte OEq 48) (KGoto (LSt 562) KNil) (KIf (CByte OEq 51) (KGoto (LSt 589) KNil) KNil KNil) KNil) (KIf (CAnd (CByte OGe 49) (CByte OLe 50)) (KGoto (LSt 588) KNil) KNil (KGoto (LTr 12) KNil))));
  (* machine.go:9260 st562 *) ((LSt 562), (KInc (KIf CPe (KGoto (LEofN 562) KNil) KNil KNil)));
  (* machine.go:9264 stCase562 *) ((LCase 562), (KIf (CAnd (CByte OGe 49) (CByte OLe 57)) (KGoto (LSt 563) KNil) KNil (KGoto (LTr 12) KNil)));
  (* machine.go:9269 st563 *) ((LSt 563), (KInc (KIf CPe (KGoto (LEofN 563) KNil) KNil KNil)));
  (* machine.go:9273 stCase563 *) ((LCase 563), (KIf (CByte OEq 84) (KGoto (LSt 564) KNil) KNil (KGoto (LTr 12) KNil)));
  (* machine.go:9278 st564 *) ((LSt 564), (KInc (KIf CPe (KGoto (LEofN 564) KNil) KNil KNil)));
  (* machine.go:9282 stCase564 *) ((LCase 564), (KIf (CByte OEq 50) (KGoto (LSt 587) KNil) KNil (KIf (CAnd (CByte OGe 48) (CByte OLe 49)) (KGoto (LSt 565) KNil) KNil (KGoto (LTr 12) KNil))));
  (* machine.go:9290 st565 *) ((LSt 565), (KInc (KIf CPe (KGoto (LEofN 565) KNil) KNil KNil)));
  (* machine.go:9294 stCase565 *) ((LCase 565), (KIf (CAnd (CByte OGe 48) (CByte OLe 57)) (KGoto (LSt 566) KNil) KNil (KGoto (LTr 12) KNil)));
  (* machine.go:9299 st566 *) ((LSt 566), (KInc (KIf CPe (KGoto (LEofN 566) KNil) KNil KNil)));
  (* machine.go:9303 stCase566 *) ((LCase 566), (KIf (CByte OEq 58) (KGoto (LSt 567) KNil) KNil (KGoto (LTr 12) KNil)));
  (* machine.go:9308 st567 *) ((LSt 567), (KInc (KIf CPe (KGoto (LEofN 567) KNil) KNil KNil)));
  (* machine.go:9312 stCase567 *) ((LCase 567), (KIf (CAnd (CByte OGe 48) (CByte OLe 53)) (KGoto (LSt 568) KNil) KNil (KGoto (LTr 12) KNil)));
  (* machine.go:9317 st568 *) ((LSt 568), (KInc (KIf CPe (KGoto (LEofN 568) KNil) KNil KNil)));
  (* machine.go:9321 stCase568 *) ((LCase 568), (KIf (CAnd (CByte OGe 48) (CByte OLe 57)) (KGoto (LSt 569) KNil) KNil (KGoto (LTr 12) KNil)));
  (* machine.go:9326 st569 *) ((LSt 569), (KInc (KIf CPe (KGoto (LEofN 569) KNil) KNil KNil)));
  (* machine.go:9330 stCase569 *) ((LCase 569), (KIf (CByte OEq 58) (KGoto (LSt 570) KNil) KNil (KGoto (LTr 12) KNil)));
  (* machine.go:9335 st570 *) ((LSt 570), (KInc (KIf CPe (KGoto (LEofN 570) KNil) KNil KNil)));
  (* machine.go:9339 stCase570 *) ((LCase 570), (KIf (CAnd (CByte OGe 48) (CByte OLe 53)) (KGoto (LSt 571) KNil) KNil (KGoto (LTr 12) KNil)));
  (* machine.go:9344 st571 *) ((LSt 571), (KInc (KIf CPe (KGoto (LEofN 571) KNil) KNil KNil)))
].

(* /repo/rfc5424/machine.go *)
Definition prog5424_20 : list (label * code act cnd) := [
  (* machine.go:9348 stCase571 *) ((LCase 571), (KIf (CAnd (CByte OGe 48) (CByte OLe 57)) (KGoto (LSt 572) KNil) KNil (KGoto (LTr 12) KNil)));
  (* machine.go:9353 st572 *) ((LSt 572), (KInc (KIf CPe (KGoto (LEofN 572) KNil) KNil KNil)));
  (* machine.go:9357 stCase572 *) ((LCase 572), (KBlk (KIf (CByte OEq 43) (KGoto (LSt 573) KNil) (KIf (CByte OEq 45) (KGoto (LSt 573) KNil) (KIf (CByte OEq 46) (KGoto (LSt 580) KNil) (KIf (CByte OEq 90) (KGoto (LSt 578) KNil) KNil KNil) KNil) KNil) KNil) (KGoto (LTr 12) KNil)));
  (* machine.go:9369 st573 *) ((LSt 573), (KInc (KIf CPe (KGoto (LEofN 573) KNil) KNil KNil)));
  (* machine.go:9373 stCase573 *) ((LCase 573), (KIf (CByte OEq 50) (KGoto (LSt 579) KNil) KNil (KIf (CAnd (CByte OGe 48) (CByte OLe 49)) (KGoto (LSt 574) KNil) KNil (KGoto (LTr 12) KNil))));
  (* machine.go:9381 st574 *) ((LSt 574), (KInc (KIf CPe (KGoto (LEofN 574) KNil) KNil KNil)));
  (* machine.go:9385 stCase574 *) ((LCase 574), (KIf (CAnd (CByte OGe 48) (CByte OLe 57)) (KGoto (LSt 575) KNil) KNil (KGoto (LTr 12) KNil)));
  (* machine.go:9390 st575 *) ((LSt 575), (KInc (KIf CPe (KGoto (LEofN 575) KNil) KNil KNil)));
  (* machine.go:9394 stCase575 *) ((LCase 575), (KIf (CByte OEq 58) (KGoto (LSt 576) KNil) KNil (KGoto (LTr 12) KNil)));
  (* machine.go:9399 st576 *) ((LSt 576), (KInc (KIf CPe (KGoto (LEofN 576) KNil) KNil KNil)));
  (* machine.go:9403 stCase576 *) ((LCase 576), (KIf (CAnd (CByte OGe 48) (CByte OLe 53)) (KGoto (LSt 577) KNil) KNil (KGoto (LTr 12) KNil)));
  (* machine.go:9408 st577 *) ((LSt 577), (KInc (KIf CPe (KGoto (LEofN 577) KNil) KNil KNil)));
  (* machine.go:9412 stCase577 *) ((LCase 577), (KIf (CAnd (CByte OGe 48) (CByte OLe 57)) (KGoto (LSt 578) KNil) KNil (KGoto (LTr 12) KNil)));
  (* machine.go:9417 st578 *) ((LSt 578), (KInc (KIf CPe (KGoto (LEofN 578) KNil) KNil KNil)));
  (* machine.go:9421 stCase578 *) ((LCase 578), (KIf (CByte OEq 32) (KGoto (LTr 616) KNil) KNil (KGoto (LTr 615) KNil)));
  (* machine.go:9426 st579 *) ((LSt 579), (KInc (KIf CPe (KGoto (LEofN 579) KNil) KNil KNil)));
  (* machine.go:9430 stCase579 *) ((LCase 579), (KIf (CAnd (CByte OGe 48) (CByte OLe 51)) (KGoto (LSt 575) KNil) KNil (KGoto (LTr 12) KNil)));
  (* machine.go:9435 st580 *) ((LSt 580), (KInc (KIf CPe (KGoto (LEofN 580) KNil) KNil KNil)));
  (* machine.go:9439 stCase580 *) ((LCase 580), (KIf (CAnd (CByte OGe 48) (CByte OLe 57)) (KGoto (LSt 581) KNil) KNil (KGoto (LTr 12) KNil)));
  (* machine.go:9444 st581 *) ((LSt 581), (KInc (KIf CPe (KGoto (LEofN 581) KNil) KNil KNil)));
  (* machine.go:9448 stCase581 *) ((LCase 581), (KBlk (KIf (CByte OEq 43) (KGoto (LSt 573) KNil) (KIf (CByte OEq 45) (KGoto (LSt 573) KNil) (KIf (CByte OEq 90) (KGoto (LSt 578) KNil) KNil KNil) KNil) KNil) (KIf (CAnd (CByte OGe 48) (CByte OLe 57)) (KGoto (LSt 582) KNil) KNil (KGoto (LTr 12) KNil))));
  (* machine.go:9461 st582 *) ((LSt 582), (KInc (KIf CPe (KGoto (LEofN 582) KNil) KNil KNil)));
  (* machine.go:9465 stCase582 *) ((LCase 582), (KBlk (KIf (CByte OEq 43) (KGoto (LSt 573) KNil) (KIf (CByte OEq 45) (KGoto (LSt 573) KNil) (KIf (CByte OEq 90) (KGoto (LSt 578) KNil) KNil KNil) KNil) KNil) (KIf (CAnd (CByte OGe 48) (CByte OLe 57)) (KGoto (LSt 583) KNil) KNil (KGoto (LTr 12) KNil))));
  (* machine.go:9478 st583 *) ((LSt 583), (KInc (KIf CPe (KGoto (LEofN 583) KNil) KNil KNil)));
  (* machine.go:9482 stCase583 *) ((LCase 583), (KBlk (KIf (CByte OEq 43) (KGoto (LSt 573) KNil) (KIf (CByte OEq 45) (KGoto (LSt 573) KNil) (KIf (CByte OEq 90) (KGoto (LSt 578) KNil) KNil KNil) KNil) KNil) (KIf (CAnd (CByte OGe 48) (CByte OLe 57)) (KGoto (LSt 584) KNil) KNil (KGoto (LTr 12) KNil))));
  (* machine.go:9495 st584 *) ((LSt 584), (KInc (KIf CPe (KGoto (LEofN 584) KNil) KNil KNil)));
  (* machine.go:9499 stCase584 *) ((LCase 584), (KBlk (KIf (CByte OEq 43) (KGoto (LSt 573) KNil) (KIf (CByte OEq 45) (KGoto (LSt 573) KNil) (KIf (CByte OEq 90) (KGoto (LSt 578) KNil) KNil KNil) KNil) KNil) (KIf (CAnd (CByte OGe 48) (CByte OLe 57)) (KGoto (LSt 585) KNil) KNil (KGoto (LTr 12) KNil))));
  (* machine.go:9512 st585 *) ((LSt 585), (KInc (KIf CPe (KGoto (LEofN 585) KNil) KNil KNil)));
  (* machine.go:9516 stCase585 *) ((LCase 585), (KBlk (KIf (CByte OEq 43) (KGoto (LSt 573) KNil) (KIf (CByte OEq 45) (KGoto (LSt 573) KNil) (KIf (CByte OEq 90) (KGoto (LSt 578) KNil) KNil KNil) KNil) KNil) (KIf (CAnd (CByte OGe 48) (CByte OLe 57)) (KGoto (LSt 586) KNil) KNil (KGoto (LTr 12) KNil))));
  (* machine.go:9529 st586 *) ((LSt 586), (KInc (KIf CPe (KGoto (LEofN 586) KNil) KNil KNil)));
  (* machine.go:9533 stCase586 *) ((LCase 586), (KBlk (KIf (CByte OEq 43) (KGoto (LSt 573) KNil) (KIf (CByte OEq 45) (KGoto (LSt 573) KNil) (KIf (CByte OEq 90) (KGoto (LSt 578) KNil) KNil KNil) KNil) KNil) (KGoto (LTr 12) KNil)));
  (* machine.go:9543 st587 *) ((LSt 587), (KInc (KIf CPe (KGoto (LEofN 587) KNil) KNil KNil)));
  (* machine.go:9547 stCase587 *) ((LCase 587), (KIf (CAnd (CByte OGe 48) (CByte OLe 51)) (KGoto (LSt 566) KNil) KNil (KGoto (LTr 12) KNil)));
  (* machine.go:9552 st588 *) ((LSt 588), (KInc (KIf CPe (KGoto (LEofN 588) KNil) KNil KNil)));
  (* machine.go:9556 stCase588 *) ((LCase 588), (KIf (CAnd (CByte OGe 48) (CByte OLe 57)) (KGoto (LSt 563) KNil) KNil (KGoto (LTr 12) KNil)));
  (* machine.go:9561 st589 *) ((LSt 589), (KInc (KIf CPe (KGoto (LEofN 589) KNil) KNil KNil)));
  (* machine.go:9565 stCase589 *) ((LCase 589), (KIf (CAnd (CByte OGe 48) (CByte OLe 49)) (KGoto (LSt 563) KNil) KNil (KGoto (LTr 12) KNil)));
  (* machine.go:9570 st590 *) ((LSt 590), (KInc (KIf CPe (KGoto (LEofN 590) KNil) KNil KNil)));
  (* machine.go:9574 stCase590 *) ((LCase 590), (KIf (CAnd (CByte OGe 48) (CByte OLe 50)) (KGoto (LSt 560) KNil) KNil (KGoto (LTr 12) KNil)));
  (* machine.go:9579 st591 *) ((LSt 591), (KInc (KIf CPe (KGoto (LEofN 591) KNil) KNil KNil)));
  (* machine.go:9583 stCase591 *) ((LCase 591), (KAct AVersion (KIf (CByte OEq 32) (KGoto (LSt 6) KNil) KNil (KIf (CAnd (CByte OGe 48) (CByte OLe 57)) (KGoto (LSt 592) KNil) KNil (KGoto (LTr 7) KNil)))));
  (* machine.go:9594 st592 *) ((LSt 592), (KInc (KIf CPe (KGoto (LEofN 592) KNil) KNil KNil)));
  (* machine.go:9598 stCase592 *) ((LCase 592), (KAct AVersion (KIf (CByte OEq 32) (KGoto (LSt 6) KNil) KNil (KGoto (LTr 7) KNil))));
  (* machine.go:9606 tr4 *) ((LTr 4), (KAct APb (KGoto (LSt 593) KNil)));
  (* machine.go:9611 st593 *) ((LSt 593), (KInc (KIf CPe (KGoto (LEofN 593) KNil) KNil KNil)));
  (* machine.go:9615 stCase593 *) ((LCase 593), (KAct APriority (KAct APrioritySet (KBlk (KIf (CByte OEq 57) (KGoto (LSt 595) KNil) (KIf (CByte OEq 62) (KGoto (LSt 4) KNil) KNil KNil) KNil) (KIf (CAnd (CByte OGe 48) (CByte OLe 56)) (KGoto (LSt 594) KNil) KNil (KGoto (LTr 2) KNil))))));
  (* machine.go:9630 tr5 *) ((LTr 5), (KAct APb (KGoto (LSt 594) KNil)));
  (* machine.go:9635 st594 *) ((LSt 594), (KInc (KIf CPe (KGoto (LEofN 594) KNil) KNil KNil)));
  (* machine.go:9639 stCase594 *) ((LCase 594), (KAct APriority (KAct APrioritySet (KIf (CByte OEq 62) (KGoto (LSt 4) KNil) KNil (KIf (CAnd (CByte OGe 48) (CByte OLe 57)) (KGoto (LSt 3) KNil) KNil (KGoto (LTr 2) KNil))))));
  (* machine.go:9651 st595 *) ((LSt 595), (KInc (KIf CPe (KGoto (LEofN 595) KNil) KNil KNil)));
  (* machine.go:9655 stCase595 *) ((LCase 595), (KAct APriority (KAct APrioritySet (KIf (CByte OEq 62) (KGoto (LSt 4) KNil) KNil (KIf (CAnd (CByte OGe 48) (CByte OLe 49)) (KGoto (LSt 3) KNil) KNil (KGoto (LTr 2) KNil))))));
  (* machine.go:9667 st607 *) ((LSt 607), (KInc (KIf CPe (KGoto (LEofN 607) KNil) KNil KNil)));
  (* machine.go:9671 stCase607 *) ((LCase 607), (KGoto (LTr 635) KNil));
  (* machine.go:9673 tr635 *) ((LTr 635), (KAct APb (KAct AMsgat (KGoto (LSt 608) KNil))));
  (* machine.go:9680 st608 *) ((LSt 608), (KInc (KIf CPe (KGoto (LEofN 608) KNil) KNil KNil)));
  (* machine.go:9684 stCase608 *) ((LCase 608), (KGoto (LSt 608) KNil));
  (* machine.go:9686 st609 *) ((LSt 609), (KInc (KIf CPe (KGoto (LEofN 609) KNil) KNil KNil)));
  (* machine.go:9690 stCase609 *) ((LCase 609), (KIf (CByte OEq 239) (KGoto (LTr 638) KNil) KNil (KGoto (LTr 637) KNil)));
  (* machine.go:9695 tr637 *) ((LTr 637), (KAct APb (KAct AMsgat (KGoto (LSt 610) KNil))));
  (* machine.go:9702 st610 *) ((LSt 610), (KInc (KIf CPe (KGoto (LEofN 610) KNil) KNil KNil)))
].

(* /repo/rfc5424/machine.go *)
Definition prog5424_21 : list (label * code act cnd) := [
  (* machine.go:9706 stCase610 *) ((LCase 610), (KGoto (LSt 610) KNil));
  (* machine.go:9708 tr638 *) ((LTr 638), (KAct APb (KAct AMsgat (KGoto (LSt 611) KNil))));
  (* machine.go:9715 st611 *) ((LSt 611), (KInc (KIf CPe (KGoto (LEofN 611) KNil) KNil KNil)));
  (* machine.go:9719 stCase611 *) ((LCase 611), (KIf (CByte OEq 187) (KGoto (LSt 612) KNil) KNil (KGoto (LSt 610) KNil)));
  (* machine.go:9724 st612 *) ((LSt 612), (KInc (KIf CPe (KGoto (LEofN 612) KNil) KNil KNil)));
  (* machine.go:9728 stCase612 *) ((LCase 612), (KIf (CByte OEq 191) (KGoto (LSt 613) KNil) KNil (KGoto (LSt 610) KNil)));
  (* machine.go:9733 st613 *) ((LSt 613), (KInc (KIf CPe (KGoto (LEofN 613) KNil) KNil KNil)));
  (* machine.go:9737 stCase613 *) ((LCase 613), (KBlk (KIf (CByte OEq 224) (KGoto (LSt 597) KNil) (KIf (CByte OEq 237) (KGoto (LSt 599) KNil) (KIf (CByte OEq 240) (KGoto (LSt 600) KNil) (KIf (CByte OEq 244) (KGoto (LSt 602) KNil) KNil KNil) KNil) KNil) KNil) (KBlk (KIf (CByte OLt 225) (KBlk (KIf (CByte OGt 193) (KIf (CAnd (CByte OGe 194) (CByte OLe 223)) (KGoto (LSt 596) KNil) KNil KNil) (KIf (CByte OGe 128) (KGoto (LTr 627) KNil) KNil KNil) KNil) KNil) (KIf (CByte OGt 239) (KBlk (KIf (CByte OGt 243) (KIf (CByte OGe 245) (KGoto (LTr 627) KNil) KNil KNil) (KIf (CByte OGe 241) (KGoto (LSt 601) KNil) KNil KNil) KNil) KNil) (KGoto (LSt 598) KNil) KNil) KNil) (KGoto (LSt 613) KNil))));
  (* machine.go:9771 st596 *) ((LSt 596), (KInc (KIf CPe (KGoto (LEofN 596) KNil) KNil KNil)));
  (* machine.go:9775 stCase596 *) ((LCase 596), (KIf (CAnd (CByte OGe 128) (CByte OLe 191)) (KGoto (LSt 613) KNil) KNil (KGoto (LTr 627) KNil)));
  (* machine.go:9780 st597 *) ((LSt 597), (KInc (KIf CPe (KGoto (LEofN 597) KNil) KNil KNil)));
  (* machine.go:9784 stCase597 *) ((LCase 597), (KIf (CAnd (CByte OGe 160) (CByte OLe 191)) (KGoto (LSt 596) KNil) KNil (KGoto (LTr 627) KNil)));
  (* machine.go:9789 st598 *) ((LSt 598), (KInc (KIf CPe (KGoto (LEofN 598) KNil) KNil KNil)));
  (* machine.go:9793 stCase598 *) ((LCase 598), (KIf (CAnd (CByte OGe 128) (CByte OLe 191)) (KGoto (LSt 596) KNil) KNil (KGoto (LTr 627) KNil)));
  (* machine.go:9798 st599 *) ((LSt 599), (KInc (KIf CPe (KGoto (LEofN 599) KNil) KNil KNil)));
  (* machine.go:9802 stCase599 *) ((LCase 599), (KIf (CAnd (CByte OGe 128) (CByte OLe 159)) (KGoto (LSt 596) KNil) KNil (KGoto (LTr 627) KNil)));
  (* machine.go:9807 st600 *) ((LSt 600), (KInc (KIf CPe (KGoto (LEofN 600) KNil) KNil KNil)));
  (* machine.go:9811 stCase600 *) ((LCase 600), (KIf (CAnd (CByte OGe 144) (CByte OLe 191)) (KGoto (LSt 598) KNil) KNil (KGoto (LTr 627) KNil)));
  (* machine.go:9816 st601 *) ((LSt 601), (KInc (KIf CPe (KGoto (LEofN 601) KNil) KNil KNil)));
  (* machine.go:9820 stCase601 *) ((LCase 601), (KIf (CAnd (CByte OGe 128) (CByte OLe 191)) (KGoto (LSt 598) KNil) KNil (KGoto (LTr 627) KNil)));
  (* machine.go:9825 st602 *) ((LSt 602), (KInc (KIf CPe (KGoto (LEofN 602) KNil) KNil KNil)));
  (* machine.go:9829 stCase602 *) ((LCase 602), (KIf (CAnd (CByte OGe 128) (CByte OLe 143)) (KGoto (LSt 598) KNil) KNil (KGoto (LTr 627) KNil)));
  (* machine.go:9834 st614 *) ((LSt 614), (KInc (KIf CPe (KGoto (LEofN 614) KNil) KNil KNil)));
  (* machine.go:9838 stCase614 *) ((LCase 614), (KBlk (KIf (CByte OEq 10) (KGoto (LSt 0) KNil) (KIf (CByte OEq 13) (KGoto (LSt 0) KNil) KNil KNil) KNil) (KGoto (LSt 614) KNil)));
  (* machine.go:9846 stOut *) (LStOut, KNil);
  (* machine.go:9847 _testEof2 *) ((LEofN 2), (KCs 2 (KGoto LEof KNil)));
  (* machine.go:9850 _testEof3 *) ((LEofN 3), (KCs 3 (KGoto LEof KNil)));
  (* machine.go:9853 _testEof4 *) ((LEofN 4), (KCs 4 (KGoto LEof KNil)));
  (* machine.go:9856 _testEof5 *) ((LEofN 5), (KCs 5 (KGoto LEof KNil)));
  (* machine.go:9859 _testEof6 *) ((LEofN 6), (KCs 6 (KGoto LEof KNil)));
  (* machine.go:9862 _testEof7 *) ((LEofN 7), (KCs 7 (KGoto LEof KNil)));
  (* machine.go:9865 _testEof8 *) ((LEofN 8), (KCs 8 (KGoto LEof KNil)));
  (* machine.go:9868 _testEof9 *) ((LEofN 9), (KCs 9 (KGoto LEof KNil)));
  (* machine.go:9871 _testEof10 *) ((LEofN 10), (KCs 10 (KGoto LEof KNil)));
  (* machine.go:9874 _testEof11 *) ((LEofN 11), (KCs 11 (KGoto LEof KNil)));
  (* machine.go:9877 _testEof12 *) ((LEofN 12), (KCs 12 (KGoto LEof KNil)));
  (* machine.go:9880 _testEof13 *) ((LEofN 13), (KCs 13 (KGoto LEof KNil)));
  (* machine.go:9883 _testEof14 *) ((LEofN 14), (KCs 14 (KGoto LEof KNil)));
  (* machine.go:9886 _testEof15 *) ((LEofN 15), (KCs 15 (KGoto LEof KNil)));
  (* machine.go:9889 _testEof16 *) ((LEofN 16), (KCs 16 (KGoto LEof KNil)));
  (* machine.go:9892 _testEof603 *) ((LEofN 603), (KCs 603 (KGoto LEof KNil)));
  (* machine.go:9895 _testEof604 *) ((LEofN 604), (KCs 604 (KGoto LEof KNil)));
  (* machine.go:9898 _testEof605 *) ((LEofN 605), (KCs 605 (KGoto LEof KNil)));
  (* machine.go:9901 _testEof17 *) ((LEofN 17), (KCs 17 (KGoto LEof KNil)));
  (* machine.go:9904 _testEof18 *) ((LEofN 18), (KCs 18 (KGoto LEof KNil)));
  (* machine.go:9907 _testEof19 *) ((LEofN 19), (KCs 19 (KGoto LEof KNil)));
  (* machine.go:9910 _testEof20 *) ((LEofN 20), (KCs 20 (KGoto LEof KNil)));
  (* machine.go:9913 _testEof21 *) ((LEofN 21), (KCs 21 (KGoto LEof KNil)));
  (* machine.go:9916 _testEof22 *) ((LEofN 22), (KCs 22 (KGoto LEof KNil)));
  (* machine.go:9919 _testEof23 *) ((LEofN 23), (KCs 23 (KGoto LEof KNil)));
  (* machine.go:9922 _testEof24 *) ((LEofN 24), (KCs 24 (KGoto LEof KNil)));
  (* machine.go:9925 _testEof25 *) ((LEofN 25), (KCs 25 (KGoto LEof KNil)));
  (* machine.go:9928 _testEof26 *) ((LEofN 26), (KCs 26 (KGoto LEof KNil)));
  (* machine.go:9931 _testEof27 *) ((LEofN 27), (KCs 27 (KGoto LEof KNil)));
  (* machine.go:9934 _testEof28 *) ((LEofN 28), (KCs 28 (KGoto LEof KNil)));
  (* machine.go:9937 _testEof29 *) ((LEofN 29), (KCs 29 (KGoto LEof KNil)));
  (* machine.go:9940 _testEof30 *) ((LEofN 30), (KCs 30 (KGoto LEof KNil)));
  (* machine.go:9943 _testEof31 *) ((LEofN 31), (KCs 31 (KGoto LEof KNil)));
  (* machine.go:9946 _testEof32 *) ((LEofN 32), (KCs 32 (KGoto LEof KNil)));
  (* machine.go:9949 _testEof33 *) ((LEofN 33), (KCs 33 (KGoto LEof KNil)))
].

(* /repo/rfc5424/machine.go *)
Definition prog5424_22 : list (label * code act cnd) := [
  (* machine.go:9952 _testEof34 *) ((LEofN 34), (KCs 34 (KGoto LEof KNil)));
  (* machine.go:9955 _testEof35 *) ((LEofN 35), (KCs 35 (KGoto LEof KNil)));
  (* machine.go:9958 _testEof36 *) ((LEofN 36), (KCs 36 (KGoto LEof KNil)));
  (* machine.go:9961 _testEof37 *) ((LEofN 37), (KCs 37 (KGoto LEof KNil)));
  (* machine.go:9964 _testEof38 *) ((LEofN 38), (KCs 38 (KGoto LEof KNil)));
  (* machine.go:9967 _testEof39 *) ((LEofN 39), (KCs 39 (KGoto LEof KNil)));
  (* machine.go:9970 _testEof40 *) ((LEofN 40), (KCs 40 (KGoto LEof KNil)));
  (* machine.go:9973 _testEof41 *) ((LEofN 41), (KCs 41 (KGoto LEof KNil)));
  (* machine.go:9976 _testEof42 *) ((LEofN 42), (KCs 42 (KGoto LEof KNil)));
  (* machine.go:9979 _testEof43 *) ((LEofN 43), (KCs 43 (KGoto LEof KNil)));
  (* machine.go:9982 _testEof44 *) ((LEofN 44), (KCs 44 (KGoto LEof KNil)));
  (* machine.go:9985 _testEof45 *) ((LEofN 45), (KCs 45 (KGoto LEof KNil)));
  (* machine.go:9988 _testEof46 *) ((LEofN 46), (KCs 46 (KGoto LEof KNil)));
  (* machine.go:9991 _testEof47 *) ((LEofN 47), (KCs 47 (KGoto LEof KNil)));
  (* machine.go:9994 _testEof48 *) ((LEofN 48), (KCs 48 (KGoto LEof KNil)));
  (* machine.go:9997 _testEof49 *) ((LEofN 49), (KCs 49 (KGoto LEof KNil)));
  (* machine.go:10000 _testEof50 *) ((LEofN 50), (KCs 50 (KGoto LEof KNil)));
  (* machine.go:10003 _testEof51 *) ((LEofN 51), (KCs 51 (KGoto LEof KNil)));
  (* machine.go:10006 _testEof52 *) ((LEofN 52), (KCs 52 (KGoto LEof KNil)));
  (* machine.go:10009 _testEof53 *) ((LEofN 53), (KCs 53 (KGoto LEof KNil)));
  (* machine.go:10012 _testEof54 *) ((LEofN 54), (KCs 54 (KGoto LEof KNil)));
  (* machine.go:10015 _testEof55 *) ((LEofN 55), (KCs 55 (KGoto LEof KNil)));
  (* machine.go:10018 _testEof606 *) ((LEofN 606), (KCs 606 (KGoto LEof KNil)));
  (* machine.go:10021 _testEof56 *) ((LEofN 56), (KCs 56 (KGoto LEof KNil)));
  (* machine.go:10024 _testEof57 *) ((LEofN 57), (KCs 57 (KGoto LEof KNil)));
  (* machine.go:10027 _testEof58 *) ((LEofN 58), (KCs 58 (KGoto LEof KNil)));
  (* machine.go:10030 _testEof59 *) ((LEofN 59), (KCs 59 (KGoto LEof KNil)));
  (* machine.go:10033 _testEof60 *) ((LEofN 60), (KCs 60 (KGoto LEof KNil)));
  (* machine.go:10036 _testEof61 *) ((LEofN 61), (KCs 61 (KGoto LEof KNil)));
  (* machine.go:10039 _testEof62 *) ((LEofN 62), (KCs 62 (KGoto LEof KNil)));
  (* machine.go:10042 _testEof63 *) ((LEofN 63), (KCs 63 (KGoto LEof KNil)));
  (* machine.go:10045 _testEof64 *) ((LEofN 64), (KCs 64 (KGoto LEof KNil)));
  (* machine.go:10048 _testEof65 *) ((LEofN 65), (KCs 65 (KGoto LEof KNil)));
  (* machine.go:10051 _testEof66 *) ((LEofN 66), (KCs 66 (KGoto LEof KNil)));
  (* machine.go:10054 _testEof67 *) ((LEofN 67), (KCs 67 (KGoto LEof KNil)));
  (* machine.go:10057 _testEof68 *) ((LEofN 68), (KCs 68 (KGoto LEof KNil)));
  (* machine.go:10060 _testEof69 *) ((LEofN 69), (KCs 69 (KGoto LEof KNil)));
  (* machine.go:10063 _testEof70 *) ((LEofN 70), (KCs 70 (KGoto LEof KNil)));
  (* machine.go:10066 _testEof71 *) ((LEofN 71), (KCs 71 (KGoto LEof KNil)));
  (* machine.go:10069 _testEof72 *) ((LEofN 72), (KCs 72 (KGoto LEof KNil)));
  (* machine.go:10072 _testEof73 *) ((LEofN 73), (KCs 73 (KGoto LEof KNil)));
  (* machine.go:10075 _testEof74 *) ((LEofN 74), (KCs 74 (KGoto LEof KNil)));
  (* machine.go:10078 _testEof75 *) ((LEofN 75), (KCs 75 (KGoto LEof KNil)));
  (* machine.go:10081 _testEof76 *) ((LEofN 76), (KCs 76 (KGoto LEof KNil)));
  (* machine.go:10084 _testEof77 *) ((LEofN 77), (KCs 77 (KGoto LEof KNil)));
  (* machine.go:10087 _testEof78 *) ((LEofN 78), (KCs 78 (KGoto LEof KNil)));
  (* machine.go:10090 _testEof79 *) ((LEofN 79), (KCs 79 (KGoto LEof KNil)));
  (* machine.go:10093 _testEof80 *) ((LEofN 80), (KCs 80 (KGoto LEof KNil)));
  (* machine.go:10096 _testEof81 *) ((LEofN 81), (KCs 81 (KGoto LEof KNil)));
  (* machine.go:10099 _testEof82 *) ((LEofN 82), (KCs 82 (KGoto LEof KNil)));
  (* machine.go:10102 _testEof83 *) ((LEofN 83), (KCs 83 (KGoto LEof KNil)));
  (* machine.go:10105 _testEof84 *) ((LEofN 84), (KCs 84 (KGoto LEof KNil)));
  (* machine.go:10108 _testEof85 *) ((LEofN 85), (KCs 85 (KGoto LEof KNil)));
  (* machine.go:10111 _testEof86 *) ((LEofN 86), (KCs 86 (KGoto LEof KNil)));
  (* machine.go:10114 _testEof87 *) ((LEofN 87), (KCs 87 (KGoto LEof KNil)));
  (* machine.go:10117 _testEof88 *) ((LEofN 88), (KCs 88 (KGoto LEof KNil)));
  (* machine.go:10120 _testEof89 *) ((LEofN 89), (KCs 89 (KGoto LEof KNil)));
  (* machine.go:10123 _testEof90 *) ((LEofN 90), (KCs 90 (KGoto LEof KNil)));
  (* machine.go:10126 _testEof91 *) ((LEofN 91), (KCs 91 (KGoto LEof KNil)));
  (* machine.go:10129 _testEof92 *) ((LEofN 92), (KCs 92 (KGoto LEof KNil)))
].

(* /repo/rfc5424/machine.go *)
Definition prog5424_23 : list (label * code act cnd) := [
  (* machine.go:10132 _testEof93 *) ((LEofN 93), (KCs 93 (KGoto LEof KNil)));
  (* machine.go:10135 _testEof94 *) ((LEofN 94), (KCs 94 (KGoto LEof KNil)));
  (* machine.go:10138 _testEof95 *) ((LEofN 95), (KCs 95 (KGoto LEof KNil)));
  (* machine.go:10141 _testEof96 *) ((LEofN 96), (KCs 96 (KGoto LEof KNil)));
  (* machine.go:10144 _testEof97 *) ((LEofN 97), (KCs 97 (KGoto LEof KNil)));
  (* machine.go:10147 _testEof98 *) ((LEofN 98), (KCs 98 (KGoto LEof KNil)));
  (* machine.go:10150 _testEof99 *) ((LEofN 99), (KCs 99 (KGoto LEof KNil)));
  (* machine.go:10153 _testEof100 *) ((LEofN 100), (KCs 100 (KGoto LEof KNil)));
  (* machine.go:10156 _testEof101 *) ((LEofN 101), (KCs 101 (KGoto LEof KNil)));
  (* machine.go:10159 _testEof102 *) ((LEofN 102), (KCs 102 (KGoto LEof KNil)));
  (* machine.go:10162 _testEof103 *) ((LEofN 103), (KCs 103 (KGoto LEof KNil)));
  (* machine.go:10165 _testEof104 *) ((LEofN 104), (KCs 104 (KGoto LEof KNil)));
  (* machine.go:10168 _testEof105 *) ((LEofN 105), (KCs 105 (KGoto LEof KNil)));
  (* machine.go:10171 _testEof106 *) ((LEofN 106), (KCs 106 (KGoto LEof KNil)));
  (* machine.go:10174 _testEof107 *) ((LEofN 107), (KCs 107 (KGoto LEof KNil)));
  (* machine.go:10177 _testEof108 *) ((LEofN 108), (KCs 108 (KGoto LEof KNil)));
  (* machine.go:10180 _testEof109 *) ((LEofN 109), (KCs 109 (KGoto LEof KNil)));
  (* machine.go:10183 _testEof110 *) ((LEofN 110), (KCs 110 (KGoto LEof KNil)));
  (* machine.go:10186 _testEof111 *) ((LEofN 111), (KCs 111 (KGoto LEof KNil)));
  (* machine.go:10189 _testEof112 *) ((LEofN 112), (KCs 112 (KGoto LEof KNil)));
  (* machine.go:10192 _testEof113 *) ((LEofN 113), (KCs 113 (KGoto LEof KNil)));
  (* machine.go:10195 _testEof114 *) ((LEofN 114), (KCs 114 (KGoto LEof KNil)));
  (* machine.go:10198 _testEof115 *) ((LEofN 115), (KCs 115 (KGoto LEof KNil)));
  (* machine.go:10201 _testEof116 *) ((LEofN 116), (KCs 116 (KGoto LEof KNil)));
  (* machine.go:10204 _testEof117 *) ((LEofN 117), (KCs 117 (KGoto LEof KNil)));
  (* machine.go:10207 _testEof118 *) ((LEofN 118), (KCs 118 (KGoto LEof KNil)));
  (* machine.go:10210 _testEof119 *) ((LEofN 119), (KCs 119 (KGoto LEof KNil)));
  (* machine.go:10213 _testEof120 *) ((LEofN 120), (KCs 120 (KGoto LEof KNil)));
  (* machine.go:10216 _testEof121 *) ((LEofN 121), (KCs 121 (KGoto LEof KNil)));
  (* machine.go:10219 _testEof122 *) ((LEofN 122), (KCs 122 (KGoto LEof KNil)));
  (* machine.go:10222 _testEof123 *) ((LEofN 123), (KCs 123 (KGoto LEof KNil)));
  (* machine.go:10225 _testEof124 *) ((LEofN 124), (KCs 124 (KGoto LEof KNil)));
  (* machine.go:10228 _testEof125 *) ((LEofN 125), (KCs 125 (KGoto LEof KNil)));
  (* machine.go:10231 _testEof126 *) ((LEofN 126), (KCs 126 (KGoto LEof KNil)));
  (* machine.go:10234 _testEof127 *) ((LEofN 127), (KCs 127 (KGoto LEof KNil)));
  (* machine.go:10237 _testEof128 *) ((LEofN 128), (KCs 128 (KGoto LEof KNil)));
  (* machine.go:10240 _testEof129 *) ((LEofN 129), (KCs 129 (KGoto LEof KNil)));
  (* machine.go:10243 _testEof130 *) ((LEofN 130), (KCs 130 (KGoto LEof KNil)));
  (* machine.go:10246 _testEof131 *) ((LEofN 131), (KCs 131 (KGoto LEof KNil)));
  (* machine.go:10249 _testEof132 *) ((LEofN 132), (KCs 132 (KGoto LEof KNil)));
  (* machine.go:10252 _testEof133 *) ((LEofN 133), (KCs 133 (KGoto LEof KNil)));
  (* machine.go:10255 _testEof134 *) ((LEofN 134), (KCs 134 (KGoto LEof KNil)));
  (* machine.go:10258 _testEof135 *) ((LEofN 135), (KCs 135 (KGoto LEof KNil)));
  (* machine.go:10261 _testEof136 *) ((LEofN 136), (KCs 136 (KGoto LEof KNil)));
  (* machine.go:10264 _testEof137 *) ((LEofN 137), (KCs 137 (KGoto LEof KNil)));
  (* machine.go:10267 _testEof138 *) ((LEofN 138), (KCs 138 (KGoto LEof KNil)));
  (* machine.go:10270 _testEof139 *) ((LEofN 139), (KCs 139 (KGoto LEof KNil)));
  (* machine.go:10273 _testEof140 *) ((LEofN 140), (KCs 140 (KGoto LEof KNil)));
  (* machine.go:10276 _testEof141 *) ((LEofN 141), (KCs 141 (KGoto LEof KNil)));
  (* machine.go:10279 _testEof142 *) ((LEofN 142), (KCs 142 (KGoto LEof KNil)));
  (* machine.go:10282 _testEof143 *) ((LEofN 143), (KCs 143 (KGoto LEof KNil)));
  (* machine.go:10285 _testEof144 *) ((LEofN 144), (KCs 144 (KGoto LEof KNil)));
  (* machine.go:10288 _testEof145 *) ((LEofN 145), (KCs 145 (KGoto LEof KNil)));
  (* machine.go:10291 _testEof146 *) ((LEofN 146), (KCs 146 (KGoto LEof KNil)));
  (* machine.go:10294 _testEof147 *) ((LEofN 147), (KCs 147 (KGoto LEof KNil)));
  (* machine.go:10297 _testEof148 *) ((LEofN 148), (KCs 148 (KGoto LEof KNil)));
  (* machine.go:10300 _testEof149 *) ((LEofN 149), (KCs 149 (KGoto LEof KNil)));
  (* machine.go:10303 _testEof150 *) ((LEofN 150), (KCs 150 (KGoto LEof KNil)));
  (* machine.go:10306 _testEof151 *) ((LEofN 151), (KCs 151 (KGoto LEof KNil)));
  (* machine.go:10309 _testEof152 *) ((LEofN 152), (KCs 152 (KGoto LEof KNil)))
].

(* /repo/rfc5424/machine.go *)
Definition prog5424_24 : list (label * code act cnd) := [
  (* machine.go:10312 _testEof153 *) ((LEofN 153), (KCs 153 (KGoto LEof KNil)));
  (* machine.go:10315 _testEof154 *) ((LEofN 154), (KCs 154 (KGoto LEof KNil)));
  (* machine.go:10318 _testEof155 *) ((LEofN 155), (KCs 155 (KGoto LEof KNil)));
  (* machine.go:10321 _testEof156 *) ((LEofN 156), (KCs 156 (KGoto LEof KNil)));
  (* machine.go:10324 _testEof157 *) ((LEofN 157), (KCs 157 (KGoto LEof KNil)));
  (* machine.go:10327 _testEof158 *) ((LEofN 158), (KCs 158 (KGoto LEof KNil)));
  (* machine.go:10330 _testEof159 *) ((LEofN 159), (KCs 159 (KGoto LEof KNil)));
  (* machine.go:10333 _testEof160 *) ((LEofN 160), (KCs 160 (KGoto LEof KNil)));
  (* machine.go:10336 _testEof161 *) ((LEofN 161), (KCs 161 (KGoto LEof KNil)));
  (* machine.go:10339 _testEof162 *) ((LEofN 162), (KCs 162 (KGoto LEof KNil)));
  (* machine.go:10342 _testEof163 *) ((LEofN 163), (KCs 163 (KGoto LEof KNil)));
  (* machine.go:10345 _testEof164 *) ((LEofN 164), (KCs 164 (KGoto LEof KNil)));
  (* machine.go:10348 _testEof165 *) ((LEofN 165), (KCs 165 (KGoto LEof KNil)));
  (* machine.go:10351 _testEof166 *) ((LEofN 166), (KCs 166 (KGoto LEof KNil)));
  (* machine.go:10354 _testEof167 *) ((LEofN 167), (KCs 167 (KGoto LEof KNil)));
  (* machine.go:10357 _testEof168 *) ((LEofN 168), (KCs 168 (KGoto LEof KNil)));
  (* machine.go:10360 _testEof169 *) ((LEofN 169), (KCs 169 (KGoto LEof KNil)));
  (* machine.go:10363 _testEof170 *) ((LEofN 170), (KCs 170 (KGoto LEof KNil)));
  (* machine.go:10366 _testEof171 *) ((LEofN 171), (KCs 171 (KGoto LEof KNil)));
  (* machine.go:10369 _testEof172 *) ((LEofN 172), (KCs 172 (KGoto LEof KNil)));
  (* machine.go:10372 _testEof173 *) ((LEofN 173), (KCs 173 (KGoto LEof KNil)));
  (* machine.go:10375 _testEof174 *) ((LEofN 174), (KCs 174 (KGoto LEof KNil)));
  (* machine.go:10378 _testEof175 *) ((LEofN 175), (KCs 175 (KGoto LEof KNil)));
  (* machine.go:10381 _testEof176 *) ((LEofN 176), (KCs 176 (KGoto LEof KNil)));
  (* machine.go:10384 _testEof177 *) ((LEofN 177), (KCs 177 (KGoto LEof KNil)));
  (* machine.go:10387 _testEof178 *) ((LEofN 178), (KCs 178 (KGoto LEof KNil)));
  (* machine.go:10390 _testEof179 *) ((LEofN 179), (KCs 179 (KGoto LEof KNil)));
  (* machine.go:10393 _testEof180 *) ((LEofN 180), (KCs 180 (KGoto LEof KNil)));
  (* machine.go:10396 _testEof181 *) ((LEofN 181), (KCs 181 (KGoto LEof KNil)));
  (* machine.go:10399 _testEof182 *) ((LEofN 182), (KCs 182 (KGoto LEof KNil)));
  (* machine.go:10402 _testEof183 *) ((LEofN 183), (KCs 183 (KGoto LEof KNil)));
  (* machine.go:10405 _testEof184 *) ((LEofN 184), (KCs 184 (KGoto LEof KNil)));
  (* machine.go:10408 _testEof185 *) ((LEofN 185), (KCs 185 (KGoto LEof KNil)));
  (* machine.go:10411 _testEof186 *) ((LEofN 186), (KCs 186 (KGoto LEof KNil)));
  (* machine.go:10414 _testEof187 *) ((LEofN 187), (KCs 187 (KGoto LEof KNil)));
  (* machine.go:10417 _testEof188 *) ((LEofN 188), (KCs 188 (KGoto LEof KNil)));
  (* machine.go:10420 _testEof189 *) ((LEofN 189), (KCs 189 (KGoto LEof KNil)));
  (* machine.go:10423 _testEof190 *) ((LEofN 190), (KCs 190 (KGoto LEof KNil)));
  (* machine.go:10426 _testEof191 *) ((LEofN 191), (KCs 191 (KGoto LEof KNil)));
  (* machine.go:10429 _testEof192 *) ((LEofN 192), (KCs 192 (KGoto LEof KNil)));
  (* machine.go:10432 _testEof193 *) ((LEofN 193), (KCs 193 (KGoto LEof KNil)));
  (* machine.go:10435 _testEof194 *) ((LEofN 194), (KCs 194 (KGoto LEof KNil)));
  (* machine.go:10438 _testEof195 *) ((LEofN 195), (KCs 195 (KGoto LEof KNil)));
  (* machine.go:10441 _testEof196 *) ((LEofN 196), (KCs 196 (KGoto LEof KNil)));
  (* machine.go:10444 _testEof197 *) ((LEofN 197), (KCs 197 (KGoto LEof KNil)));
  (* machine.go:10447 _testEof198 *) ((LEofN 198), (KCs 198 (KGoto LEof KNil)));
  (* machine.go:10450 _testEof199 *) ((LEofN 199), (KCs 199 (KGoto LEof KNil)));
  (* machine.go:10453 _testEof200 *) ((LEofN 200), (KCs 200 (KGoto LEof KNil)));
  (* machine.go:10456 _testEof201 *) ((LEofN 201), (KCs 201 (KGoto LEof KNil)));
  (* machine.go:10459 _testEof202 *) ((LEofN 202), (KCs 202 (KGoto LEof KNil)));
  (* machine.go:10462 _testEof203 *) ((LEofN 203), (KCs 203 (KGoto LEof KNil)));
  (* machine.go:10465 _testEof204 *) ((LEofN 204), (KCs 204 (KGoto LEof KNil)));
  (* machine.go:10468 _testEof205 *) ((LEofN 205), (KCs 205 (KGoto LEof KNil)));
  (* machine.go:10471 _testEof206 *) ((LEofN 206), (KCs 206 (KGoto LEof KNil)));
  (* machine.go:10474 _testEof207 *) ((LEofN 207), (KCs 207 (KGoto LEof KNil)));
  (* machine.go:10477 _testEof208 *) ((LEofN 208), (KCs 208 (KGoto LEof KNil)));
  (* machine.go:10480 _testEof209 *) ((LEofN 209), (KCs 209 (KGoto LEof KNil)));
  (* machine.go:10483 _testEof210 *) ((LEofN 210), (KCs 210 (KGoto LEof KNil)));
  (* machine.go:10486 _testEof211 *) ((LEofN 211), (KCs 211 (KGoto LEof KNil)));
  (* machine.go:10489 _testEof212 *) ((LEofN 212), (KCs 212 (KGoto LEof KNil)))
].

(* /repo/rfc5424/machine.go *)
Definition prog5424_25 : list (label * code act cnd) := [
  (* machine.go:10492 _testEof213 *) ((LEofN 213), (KCs 213 (KGoto LEof KNil)));
  (* machine.go:10495 _testEof214 *) ((LEofN 214), (KCs 214 (KGoto LEof KNil)));
  (* machine.go:10498 _testEof215 *) ((LEofN 215), (KCs 215 (KGoto LEof KNil)));
  (* machine.go:10501 _testEof216 *) ((LEofN 216), (KCs 216 (KGoto LEof KNil)));
  (* machine.go:10504 _testEof217 *) ((LEofN 217), (KCs 217 (KGoto LEof KNil)));
  (* machine.go:10507 _testEof218 *) ((LEofN 218), (KCs 218 (KGoto LEof KNil)));
  (* machine.go:10510 _testEof219 *) ((LEofN 219), (KCs 219 (KGoto LEof KNil)));
  (* machine.go:10513 _testEof220 *) ((LEofN 220), (KCs 220 (KGoto LEof KNil)));
  (* machine.go:10516 _testEof221 *) ((LEofN 221), (KCs 221 (KGoto LEof KNil)));
  (* machine.go:10519 _testEof222 *) ((LEofN 222), (KCs 222 (KGoto LEof KNil)));
  (* machine.go:10522 _testEof223 *) ((LEofN 223), (KCs 223 (KGoto LEof KNil)));
  (* machine.go:10525 _testEof224 *) ((LEofN 224), (KCs 224 (KGoto LEof KNil)));
  (* machine.go:10528 _testEof225 *) ((LEofN 225), (KCs 225 (KGoto LEof KNil)));
  (* machine.go:10531 _testEof226 *) ((LEofN 226), (KCs 226 (KGoto LEof KNil)));
  (* machine.go:10534 _testEof227 *) ((LEofN 227), (KCs 227 (KGoto LEof KNil)));
  (* machine.go:10537 _testEof228 *) ((LEofN 228), (KCs 228 (KGoto LEof KNil)));
  (* machine.go:10540 _testEof229 *) ((LEofN 229), (KCs 229 (KGoto LEof KNil)));
  (* machine.go:10543 _testEof230 *) ((LEofN 230), (KCs 230 (KGoto LEof KNil)));
  (* machine.go:10546 _testEof231 *) ((LEofN 231), (KCs 231 (KGoto LEof KNil)));
  (* machine.go:10549 _testEof232 *) ((LEofN 232), (KCs 232 (KGoto LEof KNil)));
  (* machine.go:10552 _testEof233 *) ((LEofN 233), (KCs 233 (KGoto LEof KNil)));
  (* machine.go:10555 _testEof234 *) ((LEofN 234), (KCs 234 (KGoto LEof KNil)));
  (* machine.go:10558 _testEof235 *) ((LEofN 235), (KCs 235 (KGoto LEof KNil)));
  (* machine.go:10561 _testEof236 *) ((LEofN 236), (KCs 236 (KGoto LEof KNil)));
  (* machine.go:10564 _testEof237 *) ((LEofN 237), (KCs 237 (KGoto LEof KNil)));
  (* machine.go:10567 _testEof238 *) ((LEofN 238), (KCs 238 (KGoto LEof KNil)));
  (* machine.go:10570 _testEof239 *) ((LEofN 239), (KCs 239 (KGoto LEof KNil)));
  (* machine.go:10573 _testEof240 *) ((LEofN 240), (KCs 240 (KGoto LEof KNil)));
  (* machine.go:10576 _testEof241 *) ((LEofN 241), (KCs 241 (KGoto LEof KNil)));
  (* machine.go:10579 _testEof242 *) ((LEofN 242), (KCs 242 (KGoto LEof KNil)));
  (* machine.go:10582 _testEof243 *) ((LEofN 243), (KCs 243 (KGoto LEof KNil)));
  (* machine.go:10585 _testEof244 *) ((LEofN 244), (KCs 244 (KGoto LEof KNil)));
  (* machine.go:10588 _testEof245 *) ((LEofN 245), (KCs 245 (KGoto LEof KNil)));
  (* machine.go:10591 _testEof246 *) ((LEofN 246), (KCs 246 (KGoto LEof KNil)));
  (* machine.go:10594 _testEof247 *) ((LEofN 247), (KCs 247 (KGoto LEof KNil)));
  (* machine.go:10597 _testEof248 *) ((LEofN 248), (KCs 248 (KGoto LEof KNil)));
  (* machine.go:10600 _testEof249 *) ((LEofN 249), (KCs 249 (KGoto LEof KNil)));
  (* machine.go:10603 _testEof250 *) ((LEofN 250), (KCs 250 (KGoto LEof KNil)));
  (* machine.go:10606 _testEof251 *) ((LEofN 251), (KCs 251 (KGoto LEof KNil)));
  (* machine.go:10609 _testEof252 *) ((LEofN 252), (KCs 252 (KGoto LEof KNil)));
  (* machine.go:10612 _testEof253 *) ((LEofN 253), (KCs 253 (KGoto LEof KNil)));
  (* machine.go:10615 _testEof254 *) ((LEofN 254), (KCs 254 (KGoto LEof KNil)));
  (* machine.go:10618 _testEof255 *) ((LEofN 255), (KCs 255 (KGoto LEof KNil)));
  (* machine.go:10621 _testEof256 *) ((LEofN 256), (KCs 256 (KGoto LEof KNil)));
  (* machine.go:10624 _testEof257 *) ((LEofN 257), (KCs 257 (KGoto LEof KNil)));
  (* machine.go:10627 _testEof258 *) ((LEofN 258), (KCs 258 (KGoto LEof KNil)));
  (* machine.go:10630 _testEof259 *) ((LEofN 259), (KCs 259 (KGoto LEof KNil)));
  (* machine.go:10633 _testEof260 *) ((LEofN 260), (KCs 260 (KGoto LEof KNil)));
  (* machine.go:10636 _testEof261 *) ((LEofN 261), (KCs 261 (KGoto LEof KNil)));
  (* machine.go:10639 _testEof262 *) ((LEofN 262), (KCs 262 (KGoto LEof KNil)));
  (* machine.go:10642 _testEof263 *) ((LEofN 263), (KCs 263 (KGoto LEof KNil)));
  (* machine.go:10645 _testEof264 *) ((LEofN 264), (KCs 264 (KGoto LEof KNil)));
  (* machine.go:10648 _testEof265 *) ((LEofN 265), (KCs 265 (KGoto LEof KNil)));
  (* machine.go:10651 _testEof266 *) ((LEofN 266), (KCs 266 (KGoto LEof KNil)));
  (* machine.go:10654 _testEof267 *) ((LEofN 267), (KCs 267 (KGoto LEof KNil)));
  (* machine.go:10657 _testEof268 *) ((LEofN 268), (KCs 268 (KGoto LEof KNil)));
  (* machine.go:10660 _testEof269 *) ((LEofN 269), (KCs 269 (KGoto LEof KNil)));
  (* machine.go:10663 _testEof270 *) ((LEofN 270), (KCs 270 (KGoto LEof KNil)));
  (* machine.go:10666 _testEof271 *) ((LEofN 271), (KCs 271 (KGoto LEof KNil)));
  (* machine.go:10669 _testEof272 *) ((LEofN 272), (KCs 272 (KGoto LEof KNil)))
].

(* /repo/rfc5424/machine.go *)
Definition prog5424_26 : list (label * code act cnd) := [
  (* machine.go:10672 _testEof273 *) ((LEofN 273), (KCs 273 (KGoto LEof KNil)));
  (* machine.go:10675 _testEof274 *) ((LEofN 274), (KCs 274 (KGoto LEof KNil)));
  (* machine.go:10678 _testEof275 *) ((LEofN 275), (KCs 275 (KGoto LEof KNil)));
  (* machine.go:10681 _testEof276 *) ((LEofN 276), (KCs 276 (KGoto LEof KNil)));
  (* machine.go:10684 _testEof277 *) ((LEofN 277), (KCs 277 (KGoto LEof KNil)));
  (* machine.go:10687 _testEof278 *) ((LEofN 278), (KCs 278 (KGoto LEof KNil)));
  (* machine.go:10690 _testEof279 *) ((LEofN 279), (KCs 279 (KGoto LEof KNil)));
  (* machine.go:10693 _testEof280 *) ((LEofN 280), (KCs 280 (KGoto LEof KNil)));
  (* machine.go:10696 _testEof281 *) ((LEofN 281), (KCs 281 (KGoto LEof KNil)));
  (* machine.go:10699 _testEof282 *) ((LEofN 282), (KCs 282 (KGoto LEof KNil)));
  (* machine.go:10702 _testEof283 *) ((LEofN 283), (KCs 283 (KGoto LEof KNil)));
  (* machine.go:10705 _testEof284 *) ((LEofN 284), (KCs 284 (KGoto LEof KNil)));
  (* machine.go:10708 _testEof285 *) ((LEofN 285), (KCs 285 (KGoto LEof KNil)));
  (* machine.go:10711 _testEof286 *) ((LEofN 286), (KCs 286 (KGoto LEof KNil)));
  (* machine.go:10714 _testEof287 *) ((LEofN 287), (KCs 287 (KGoto LEof KNil)));
  (* machine.go:10717 _testEof288 *) ((LEofN 288), (KCs 288 (KGoto LEof KNil)));
  (* machine.go:10720 _testEof289 *) ((LEofN 289), (KCs 289 (KGoto LEof KNil)));
  (* machine.go:10723 _testEof290 *) ((LEofN 290), (KCs 290 (KGoto LEof KNil)));
  (* machine.go:10726 _testEof291 *) ((LEofN 291), (KCs 291 (KGoto LEof KNil)));
  (* machine.go:10729 _testEof292 *) ((LEofN 292), (KCs 292 (KGoto LEof KNil)));
  (* machine.go:10732 _testEof293 *) ((LEofN 293), (KCs 293 (KGoto LEof KNil)));
  (* machine.go:10735 _testEof294 *) ((LEofN 294), (KCs 294 (KGoto LEof KNil)));
  (* machine.go:10738 _testEof295 *) ((LEofN 295), (KCs 295 (KGoto LEof KNil)));
  (* machine.go:10741 _testEof296 *) ((LEofN 296), (KCs 296 (KGoto LEof KNil)));
  (* machine.go:10744 _testEof297 *) ((LEofN 297), (KCs 297 (KGoto LEof KNil)));
  (* machine.go:10747 _testEof298 *) ((LEofN 298), (KCs 298 (KGoto LEof KNil)));
  (* machine.go:10750 _testEof299 *) ((LEofN 299), (KCs 299 (KGoto LEof KNil)));
  (* machine.go:10753 _testEof300 *) ((LEofN 300), (KCs 300 (KGoto LEof KNil)));
  (* machine.go:10756 _testEof301 *) ((LEofN 301), (KCs 301 (KGoto LEof KNil)));
  (* machine.go:10759 _testEof302 *) ((LEofN 302), (KCs 302 (KGoto LEof KNil)));
  (* machine.go:10762 _testEof303 *) ((LEofN 303), (KCs 303 (KGoto LEof KNil)));
  (* machine.go:10765 _testEof304 *) ((LEofN 304), (KCs 304 (KGoto LEof KNil)));
  (* machine.go:10768 _testEof305 *) ((LEofN 305), (KCs 305 (KGoto LEof KNil)));
  (* machine.go:10771 _testEof306 *) ((LEofN 306), (KCs 306 (KGoto LEof KNil)));
  (* machine.go:10774 _testEof307 *) ((LEofN 307), (KCs 307 (KGoto LEof KNil)));
  (* machine.go:10777 _testEof308 *) ((LEofN 308), (KCs 308 (KGoto LEof KNil)));
  (* machine.go:10780 _testEof309 *) ((LEofN 309), (KCs 309 (KGoto LEof KNil)));
  (* machine.go:10783 _testEof310 *) ((LEofN 310), (KCs 310 (KGoto LEof KNil)));
  (* machine.go:10786 _testEof311 *) ((LEofN 311), (KCs 311 (KGoto LEof KNil)));
  (* machine.go:10789 _testEof312 *) ((LEofN 312), (KCs 312 (KGoto LEof KNil)));
  (* machine.go:10792 _testEof313 *) ((LEofN 313), (KCs 313 (KGoto LEof KNil)));
  (* machine.go:10795 _testEof314 *) ((LEofN 314), (KCs 314 (KGoto LEof KNil)));
  (* machine.go:10798 _testEof315 *) ((LEofN 315), (KCs 315 (KGoto LEof KNil)));
  (* machine.go:10801 _testEof316 *) ((LEofN 316), (KCs 316 (KGoto LEof KNil)));
  (* machine.go:10804 _testEof317 *) ((LEofN 317), (KCs 317 (KGoto LEof KNil)));
  (* machine.go:10807 _testEof318 *) ((LEofN 318), (KCs 318 (KGoto LEof KNil)));
  (* machine.go:10810 _testEof319 *) ((LEofN 319), (KCs 319 (KGoto LEof KNil)));
  (* machine.go:10813 _testEof320 *) ((LEofN 320), (KCs 320 (KGoto LEof KNil)));
  (* machine.go:10816 _testEof321 *) ((LEofN 321), (KCs 321 (KGoto LEof KNil)));
  (* machine.go:10819 _testEof322 *) ((LEofN 322), (KCs 322 (KGoto LEof KNil)));
  (* machine.go:10822 _testEof323 *) ((LEofN 323), (KCs 323 (KGoto LEof KNil)));
  (* machine.go:10825 _testEof324 *) ((LEofN 324), (KCs 324 (KGoto LEof KNil)));
  (* machine.go:10828 _testEof325 *) ((LEofN 325), (KCs 325 (KGoto LEof KNil)));
  (* machine.go:10831 _testEof326 *) ((LEofN 326), (KCs 326 (KGoto LEof KNil)));
  (* machine.go:10834 _testEof327 *) ((LEofN 327), (KCs 327 (KGoto LEof KNil)));
  (* machine.go:10837 _testEof328 *) ((LEofN 328), (KCs 328 (KGoto LEof KNil)));
  (* machine.go:10840 _testEof329 *) ((LEofN 329), (KCs 329 (KGoto LEof KNil)));
  (* machine.go:10843 _testEof330 *) ((LEofN 330), (KCs 330 (KGoto LEof KNil)));
  (* machine.go:10846 _testEof331 *) ((LEofN 331), (KCs 331 (KGoto LEof KNil)));
  (* machine.go:10849 _testEof332 *) ((LEofN 332), (KCs 332 (KGoto LEof KNil)))
].

(* /repo/rfc5424/machine.go *)
Definition prog5424_27 : list (label * code act cnd) := [
  (* machine.go:10852 _testEof333 *) ((LEofN 333), (KCs 333 (KGoto LEof KNil)));
  (* machine.go:10855 _testEof334 *) ((LEofN 334), (KCs 334 (KGoto LEof KNil)));
  (* machine.go:10858 _testEof335 *) ((LEofN 335), (KCs 335 (KGoto LEof KNil)));
  (* machine.go:10861 _testEof336 *) ((LEofN 336), (KCs 336 (KGoto LEof KNil)));
  (* machine.go:10864 _testEof337 *) ((LEofN 337), (KCs 337 (KGoto LEof KNil)));
  (* machine.go:10867 _testEof338 *) ((LEofN 338), (KCs 338 (KGoto LEof KNil)));
  (* machine.go:10870 _testEof339 *) ((LEofN 339), (KCs 339 (KGoto LEof KNil)));
  (* machine.go:10873 _testEof340 *) ((LEofN 340), (KCs 340 (KGoto LEof KNil)));
  (* machine.go:10876 _testEof341 *) ((LEofN 341), (KCs 341 (KGoto LEof KNil)));
  (* machine.go:10879 _testEof342 *) ((LEofN 342), (KCs 342 (KGoto LEof KNil)));
  (* machine.go:10882 _testEof343 *) ((LEofN 343), (KCs 343 (KGoto LEof KNil)));
  (* machine.go:10885 _testEof344 *) ((LEofN 344), (KCs 344 (KGoto LEof KNil)));
  (* machine.go:10888 _testEof345 *) ((LEofN 345), (KCs 345 (KGoto LEof KNil)));
  (* machine.go:10891 _testEof346 *) ((LEofN 346), (KCs 346 (KGoto LEof KNil)));
  (* machine.go:10894 _testEof347 *) ((LEofN 347), (KCs 347 (KGoto LEof KNil)));
  (* machine.go:10897 _testEof348 *) ((LEofN 348), (KCs 348 (KGoto LEof KNil)));
  (* machine.go:10900 _testEof349 *) ((LEofN 349), (KCs 349 (KGoto LEof KNil)));
  (* machine.go:10903 _testEof350 *) ((LEofN 350), (KCs 350 (KGoto LEof KNil)));
  (* machine.go:10906 _testEof351 *) ((LEofN 351), (KCs 351 (KGoto LEof KNil)));
  (* machine.go:10909 _testEof352 *) ((LEofN 352), (KCs 352 (KGoto LEof KNil)));
  (* machine.go:10912 _testEof353 *) ((LEofN 353), (KCs 353 (KGoto LEof KNil)));
  (* machine.go:10915 _testEof354 *) ((LEofN 354), (KCs 354 (KGoto LEof KNil)));
  (* machine.go:10918 _testEof355 *) ((LEofN 355), (KCs 355 (KGoto LEof KNil)));
  (* machine.go:10921 _testEof356 *) ((LEofN 356), (KCs 356 (KGoto LEof KNil)));
  (* machine.go:10924 _testEof357 *) ((LEofN 357), (KCs 357 (KGoto LEof KNil)));
  (* machine.go:10927 _testEof358 *) ((LEofN 358), (KCs 358 (KGoto LEof KNil)));
  (* machine.go:10930 _testEof359 *) ((LEofN 359), (KCs 359 (KGoto LEof KNil)));
  (* machine.go:10933 _testEof360 *) ((LEofN 360), (KCs 360 (KGoto LEof KNil)));
  (* machine.go:10936 _testEof361 *) ((LEofN 361), (KCs 361 (KGoto LEof KNil)));
  (* machine.go:10939 _testEof362 *) ((LEofN 362), (KCs 362 (KGoto LEof KNil)));
  (* machine.go:10942 _testEof363 *) ((LEofN 363), (KCs 363 (KGoto LEof KNil)));
  (* machine.go:10945 _testEof364 *) ((LEofN 364), (KCs 364 (KGoto LEof KNil)));
  (* machine.go:10948 _testEof365 *) ((LEofN 365), (KCs 365 (KGoto LEof KNil)));
  (* machine.go:10951 _testEof366 *) ((LEofN 366), (KCs 366 (KGoto LEof KNil)));
  (* machine.go:10954 _testEof367 *) ((LEofN 367), (KCs 367 (KGoto LEof KNil)));
  (* machine.go:10957 _testEof368 *) ((LEofN 368), (KCs 368 (KGoto LEof KNil)));
  (* machine.go:10960 _testEof369 *) ((LEofN 369), (KCs 369 (KGoto LEof KNil)));
  (* machine.go:10963 _testEof370 *) ((LEofN 370), (KCs 370 (KGoto LEof KNil)));
  (* machine.go:10966 _testEof371 *) ((LEofN 371), (KCs 371 (KGoto LEof KNil)));
  (* machine.go:10969 _testEof372 *) ((LEofN 372), (KCs 372 (KGoto LEof KNil)));
  (* machine.go:10972 _testEof373 *) ((LEofN 373), (KCs 373 (KGoto LEof KNil)));
  (* machine.go:10975 _testEof374 *) ((LEofN 374), (KCs 374 (KGoto LEof KNil)));
  (* machine.go:10978 _testEof375 *) ((LEofN 375), (KCs 375 (KGoto LEof KNil)));
  (* machine.go:10981 _testEof376 *) ((LEofN 376), (KCs 376 (KGoto LEof KNil)));
  (* machine.go:10984 _testEof377 *) ((LEofN 377), (KCs 377 (KGoto LEof KNil)));
  (* machine.go:10987 _testEof378 *) ((LEofN 378), (KCs 378 (KGoto LEof KNil)));
  (* machine.go:10990 _testEof379 *) ((LEofN 379), (KCs 379 (KGoto LEof KNil)));
  (* machine.go:10993 _testEof380 *) ((LEofN 380), (KCs 380 (KGoto LEof KNil)));
  (* machine.go:10996 _testEof381 *) ((LEofN 381), (KCs 381 (KGoto LEof KNil)));
  (* machine.go:10999 _testEof382 *) ((LEofN 382), (KCs 382 (KGoto LEof KNil)));
  (* machine.go:11002 _testEof383 *) ((LEofN 383), (KCs 383 (KGoto LEof KNil)));
  (* machine.go:11005 _testEof384 *) ((LEofN 384), (KCs 384 (KGoto LEof KNil)));
  (* machine.go:11008 _testEof385 *) ((LEofN 385), (KCs 385 (KGoto LEof KNil)));
  (* machine.go:11011 _testEof386 *) ((LEofN 386), (KCs 386 (KGoto LEof KNil)));
  (* machine.go:11014 _testEof387 *) ((LEofN 387), (KCs 387 (KGoto LEof KNil)));
  (* machine.go:11017 _testEof388 *) ((LEofN 388), (KCs 388 (KGoto LEof KNil)));
  (* machine.go:11020 _testEof389 *) ((LEofN 389), (KCs 389 (KGoto LEof KNil)));
  (* machine.go:11023 _testEof390 *) ((LEofN 390), (KCs 390 (KGoto LEof KNil)));
  (* machine.go:11026 _testEof391 *) ((LEofN 391), (KCs 391 (KGoto LEof KNil)));
  (* machine.go:11029 _testEof392 *) ((LEofN 392), (KCs 392 (KGoto LEof KNil)))
].

(* /repo/rfc5424/machine.go *)
Definition prog5424_28 : list (label * code act cnd) := [
  (* machine.go:11032 _testEof393 *) ((LEofN 393), (KCs 393 (KGoto LEof KNil)));
  (* machine.go:11035 _testEof394 *) ((LEofN 394), (KCs 394 (KGoto LEof KNil)));
  (* machine.go:11038 _testEof395 *) ((LEofN 395), (KCs 395 (KGoto LEof KNil)));
  (* machine.go:11041 _testEof396 *) ((LEofN 396), (KCs 396 (KGoto LEof KNil)));
  (* machine.go:11044 _testEof397 *) ((LEofN 397), (KCs 397 (KGoto LEof KNil)));
  (* machine.go:11047 _testEof398 *) ((LEofN 398), (KCs 398 (KGoto LEof KNil)));
  (* machine.go:11050 _testEof399 *) ((LEofN 399), (KCs 399 (KGoto LEof KNil)));
  (* machine.go:11053 _testEof400 *) ((LEofN 400), (KCs 400 (KGoto LEof KNil)));
  (* machine.go:11056 _testEof401 *) ((LEofN 401), (KCs 401 (KGoto LEof KNil)));
  (* machine.go:11059 _testEof402 *) ((LEofN 402), (KCs 402 (KGoto LEof KNil)));
  (* machine.go:11062 _testEof403 *) ((LEofN 403), (KCs 403 (KGoto LEof KNil)));
  (* machine.go:11065 _testEof404 *) ((LEofN 404), (KCs 404 (KGoto LEof KNil)));
  (* machine.go:11068 _testEof405 *) ((LEofN 405), (KCs 405 (KGoto LEof KNil)));
  (* machine.go:11071 _testEof406 *) ((LEofN 406), (KCs 406 (KGoto LEof KNil)));
  (* machine.go:11074 _testEof407 *) ((LEofN 407), (KCs 407 (KGoto LEof KNil)));
  (* machine.go:11077 _testEof408 *) ((LEofN 408), (KCs 408 (KGoto LEof KNil)));
  (* machine.go:11080 _testEof409 *) ((LEofN 409), (KCs 409 (KGoto LEof KNil)));
  (* machine.go:11083 _testEof410 *) ((LEofN 410), (KCs 410 (KGoto LEof KNil)));
  (* machine.go:11086 _testEof411 *) ((LEofN 411), (KCs 411 (KGoto LEof KNil)));
  (* machine.go:11089 _testEof412 *) ((LEofN 412), (KCs 412 (KGoto LEof KNil)));
  (* machine.go:11092 _testEof413 *) ((LEofN 413), (KCs 413 (KGoto LEof KNil)));
  (* machine.go:11095 _testEof414 *) ((LEofN 414), (KCs 414 (KGoto LEof KNil)));
  (* machine.go:11098 _testEof415 *) ((LEofN 415), (KCs 415 (KGoto LEof KNil)));
  (* machine.go:11101 _testEof416 *) ((LEofN 416), (KCs 416 (KGoto LEof KNil)));
  (* machine.go:11104 _testEof417 *) ((LEofN 417), (KCs 417 (KGoto LEof KNil)));
  (* machine.go:11107 _testEof418 *) ((LEofN 418), (KCs 418 (KGoto LEof KNil)));
  (* machine.go:11110 _testEof419 *) ((LEofN 419), (KCs 419 (KGoto LEof KNil)));
  (* machine.go:11113 _testEof420 *) ((LEofN 420), (KCs 420 (KGoto LEof KNil)));
  (* machine.go:11116 _testEof421 *) ((LEofN 421), (KCs 421 (KGoto LEof KNil)));
  (* machine.go:11119 _testEof422 *) ((LEofN 422), (KCs 422 (KGoto LEof KNil)));
  (* machine.go:11122 _testEof423 *) ((LEofN 423), (KCs 423 (KGoto LEof KNil)));
  (* machine.go:11125 _testEof424 *) ((LEofN 424), (KCs 424 (KGoto LEof KNil)));
  (* machine.go:11128 _testEof425 *) ((LEofN 425), (KCs 425 (KGoto LEof KNil)));
  (* machine.go:11131 _testEof426 *) ((LEofN 426), (KCs 426 (KGoto LEof KNil)));
  (* machine.go:11134 _testEof427 *) ((LEofN 427), (KCs 427 (KGoto LEof KNil)));
  (* machine.go:11137 _testEof428 *) ((LEofN 428), (KCs 428 (KGoto LEof KNil)));
  (* machine.go:11140 _testEof429 *) ((LEofN 429), (KCs 429 (KGoto LEof KNil)));
  (* machine.go:11143 _testEof430 *) ((LEofN 430), (KCs 430 (KGoto LEof KNil)));
  (* machine.go:11146 _testEof431 *) ((LEofN 431), (KCs 431 (KGoto LEof KNil)));
  (* machine.go:11149 _testEof432 *) ((LEofN 432), (KCs 432 (KGoto LEof KNil)));
  (* machine.go:11152 _testEof433 *) ((LEofN 433), (KCs 433 (KGoto LEof KNil)));
  (* machine.go:11155 _testEof434 *) ((LEofN 434), (KCs 434 (KGoto LEof KNil)));
  (* machine.go:11158 _testEof435 *) ((LEofN 435), (KCs 435 (KGoto LEof KNil)));
  (* machine.go:11161 _testEof436 *) ((LEofN 436), (KCs 436 (KGoto LEof KNil)));
  (* machine.go:11164 _testEof437 *) ((LEofN 437), (KCs 437 (KGoto LEof KNil)));
  (* machine.go:11167 _testEof438 *) ((LEofN 438), (KCs 438 (KGoto LEof KNil)));
  (* machine.go:11170 _testEof439 *) ((LEofN 439), (KCs 439 (KGoto LEof KNil)));
  (* machine.go:11173 _testEof440 *) ((LEofN 440), (KCs 440 (KGoto LEof KNil)));
  (* machine.go:11176 _testEof441 *) ((LEofN 441), (KCs 441 (KGoto LEof KNil)));
  (* machine.go:11179 _testEof442 *) ((LEofN 442), (KCs 442 (KGoto LEof KNil)));
  (* machine.go:11182 _testEof443 *) ((LEofN 443), (KCs 443 (KGoto LEof KNil)));
  (* machine.go:11185 _testEof444 *) ((LEofN 444), (KCs 444 (KGoto LEof KNil)));
  (* machine.go:11188 _testEof445 *) ((LEofN 445), (KCs 445 (KGoto LEof KNil)));
  (* machine.go:11191 _testEof446 *) ((LEofN 446), (KCs 446 (KGoto LEof KNil)));
  (* machine.go:11194 _testEof447 *) ((LEofN 447), (KCs 447 (KGoto LEof KNil)));
  (* machine.go:11197 _testEof448 *) ((LEofN 448), (KCs 448 (KGoto LEof KNil)));
  (* machine.go:11200 _testEof449 *) ((LEofN 449), (KCs 449 (KGoto LEof KNil)));
  (* machine.go:11203 _testEof450 *) ((LEofN 450), (KCs 450 (KGoto LEof KNil)));
  (* machine.go:11206 _testEof451 *) ((LEofN 451), (KCs 451 (KGoto LEof KNil)));
  (* machine.go:11209 _testEof452 *) ((LEofN 452), (KCs 452 (KGoto LEof KNil)))
].

(* /repo/rfc5424/machine.go *)
Definition prog5424_29 : list (label * code act cnd) := [
  (* machine.go:11212 _testEof453 *) ((LEofN 453), (KCs 453 (KGoto LEof KNil)));
  (* machine.go:11215 _testEof454 *) ((LEofN 454), (KCs 454 (KGoto LEof KNil)));
  (* machine.go:11218 _testEof455 *) ((LEofN 455), (KCs 455 (KGoto LEof KNil)));
  (* machine.go:11221 _testEof456 *) ((LEofN 456), (KCs 456 (KGoto LEof KNil)));
  (* machine.go:11224 _testEof457 *) ((LEofN 457), (KCs 457 (KGoto LEof KNil)));
  (* machine.go:11227 _testEof458 *) ((LEofN 458), (KCs 458 (KGoto LEof KNil)));
  (* machine.go:11230 _testEof459 *) ((LEofN 459), (KCs 459 (KGoto LEof KNil)));
  (* machine.go:11233 _testEof460 *) ((LEofN 460), (KCs 460 (KGoto LEof KNil)));
  (* machine.go:11236 _testEof461 *) ((LEofN 461), (KCs 461 (KGoto LEof KNil)));
  (* machine.go:11239 _testEof462 *) ((LEofN 462), (KCs 462 (KGoto LEof KNil)));
  (* machine.go:11242 _testEof463 *) ((LEofN 463), (KCs 463 (KGoto LEof KNil)));
  (* machine.go:11245 _testEof464 *) ((LEofN 464), (KCs 464 (KGoto LEof KNil)));
  (* machine.go:11248 _testEof465 *) ((LEofN 465), (KCs 465 (KGoto LEof KNil)));
  (* machine.go:11251 _testEof466 *) ((LEofN 466), (KCs 466 (KGoto LEof KNil)));
  (* machine.go:11254 _testEof467 *) ((LEofN 467), (KCs 467 (KGoto LEof KNil)));
  (* machine.go:11257 _testEof468 *) ((LEofN 468), (KCs 468 (KGoto LEof KNil)));
  (* machine.go:11260 _testEof469 *) ((LEofN 469), (KCs 469 (KGoto LEof KNil)));
  (* machine.go:11263 _testEof470 *) ((LEofN 470), (KCs 470 (KGoto LEof KNil)));
  (* machine.go:11266 _testEof471 *) ((LEofN 471), (KCs 471 (KGoto LEof KNil)));
  (* machine.go:11269 _testEof472 *) ((LEofN 472), (KCs 472 (KGoto LEof KNil)));
  (* machine.go:11272 _testEof473 *) ((LEofN 473), (KCs 473 (KGoto LEof KNil)));
  (* machine.go:11275 _testEof474 *) ((LEofN 474), (KCs 474 (KGoto LEof KNil)));
  (* machine.go:11278 _testEof475 *) ((LEofN 475), (KCs 475 (KGoto LEof KNil)));
  (* machine.go:11281 _testEof476 *) ((LEofN 476), (KCs 476 (KGoto LEof KNil)));
  (* machine.go:11284 _testEof477 *) ((LEofN 477), (KCs 477 (KGoto LEof KNil)));
  (* machine.go:11287 _testEof478 *) ((LEofN 478), (KCs 478 (KGoto LEof KNil)));
  (* machine.go:11290 _testEof479 *) ((LEofN 479), (KCs 479 (KGoto LEof KNil)));
  (* machine.go:11293 _testEof480 *) ((LEofN 480), (KCs 480 (KGoto LEof KNil)));
  (* machine.go:11296 _testEof481 *) ((LEofN 481), (KCs 481 (KGoto LEof KNil)));
  (* machine.go:11299 _testEof482 *) ((LEofN 482), (KCs 482 (KGoto LEof KNil)));
  (* machine.go:11302 _testEof483 *) ((LEofN 483), (KCs 483 (KGoto LEof KNil)));
  (* machine.go:11305 _testEof484 *) ((LEofN 484), (KCs 484 (KGoto LEof KNil)));
  (* machine.go:11308 _testEof485 *) ((LEofN 485), (KCs 485 (KGoto LEof KNil)));
  (* machine.go:11311 _testEof486 *) ((LEofN 486), (KCs 486 (KGoto LEof KNil)));
  (* machine.go:11314 _testEof487 *) ((LEofN 487), (KCs 487 (KGoto LEof KNil)));
  (* machine.go:11317 _testEof488 *) ((LEofN 488), (KCs 488 (KGoto LEof KNil)));
  (* machine.go:11320 _testEof489 *) ((LEofN 489), (KCs 489 (KGoto LEof KNil)));
  (* machine.go:11323 _testEof490 *) ((LEofN 490), (KCs 490 (KGoto LEof KNil)));
  (* machine.go:11326 _testEof491 *) ((LEofN 491), (KCs 491 (KGoto LEof KNil)));
  (* machine.go:11329 _testEof492 *) ((LEofN 492), (KCs 492 (KGoto LEof KNil)));
  (* machine.go:11332 _testEof493 *) ((LEofN 493), (KCs 493 (KGoto LEof KNil)));
  (* machine.go:11335 _testEof494 *) ((LEofN 494), (KCs 494 (KGoto LEof KNil)));
  (* machine.go:11338 _testEof495 *) ((LEofN 495), (KCs 495 (KGoto LEof KNil)));
  (* machine.go:11341 _testEof496 *) ((LEofN 496), (KCs 496 (KGoto LEof KNil)));
  (* machine.go:11344 _testEof497 *) ((LEofN 497), (KCs 497 (KGoto LEof KNil)));
  (* machine.go:11347 _testEof498 *) ((LEofN 498), (KCs 498 (KGoto LEof KNil)));
  (* machine.go:11350 _testEof499 *) ((LEofN 499), (KCs 499 (KGoto LEof KNil)));
  (* machine.go:11353 _testEof500 *) ((LEofN 500), (KCs 500 (KGoto LEof KNil)));
  (* machine.go:11356 _testEof501 *) ((LEofN 501), (KCs 501 (KGoto LEof KNil)));
  (* machine.go:11359 _testEof502 *) ((LEofN 502), (KCs 502 (KGoto LEof KNil)));
  (* machine.go:11362 _testEof503 *) ((LEofN 503), (KCs 503 (KGoto LEof KNil)));
  (* machine.go:11365 _testEof504 *) ((LEofN 504), (KCs 504 (KGoto LEof KNil)));
  (* machine.go:11368 _testEof505 *) ((LEofN 505), (KCs 505 (KGoto LEof KNil)));
  (* machine.go:11371 _testEof506 *) ((LEofN 506), (KCs 506 (KGoto LEof KNil)));
  (* machine.go:11374 _testEof507 *) ((LEofN 507), (KCs 507 (KGoto LEof KNil)));
  (* machine.go:11377 _testEof508 *) ((LEofN 508), (KCs 508 (KGoto LEof KNil)));
  (* machine.go:11380 _testEof509 *) ((LEofN 509), (KCs 509 (KGoto LEof KNil)));
  (* machine.go:11383 _testEof510 *) ((LEofN 510), (KCs 510 (KGoto LEof KNil)));
  (* machine.go:11386 _testEof511 *) ((LEofN 511), (KCs 511 (KGoto LEof KNil)));
  (* machine.go:11389 _testEof512 *) ((LEofN 512), (KCs 512 (KGoto LEof KNil)))
].

(* /repo/rfc5424/machine.go *)
Definition prog5424_30 : list (label * code act cnd) := [
  (* machine.go:11392 _testEof513 *) ((LEofN 513), (KCs 513 (KGoto LEof KNil)));
  (* machine.go:11395 _testEof514 *) ((LEofN 514), (KCs 514 (KGoto LEof KNil)));
  (* machine.go:11398 _testEof515 *) ((LEofN 515), (KCs 515 (KGoto LEof KNil)));
  (* machine.go:11401 _testEof516 *) ((LEofN 516), (KCs 516 (KGoto LEof KNil)));
  (* machine.go:11404 _testEof517 *) ((LEofN 517), (KCs 517 (KGoto LEof KNil)));
  (* machine.go:11407 _testEof518 *) ((LEofN 518), (KCs 518 (KGoto LEof KNil)));
  (* machine.go:11410 _testEof519 *) ((LEofN 519), (KCs 519 (KGoto LEof KNil)));
  (* machine.go:11413 _testEof520 *) ((LEofN 520), (KCs 520 (KGoto LEof KNil)));
  (* machine.go:11416 _testEof521 *) ((LEofN 521), (KCs 521 (KGoto LEof KNil)));
  (* machine.go:11419 _testEof522 *) ((LEofN 522), (KCs 522 (KGoto LEof KNil)));
  (* machine.go:11422 _testEof523 *) ((LEofN 523), (KCs 523 (KGoto LEof KNil)));
  (* machine.go:11425 _testEof524 *) ((LEofN 524), (KCs 524 (KGoto LEof KNil)));
  (* machine.go:11428 _testEof525 *) ((LEofN 525), (KCs 525 (KGoto LEof KNil)));
  (* machine.go:11431 _testEof526 *) ((LEofN 526), (KCs 526 (KGoto LEof KNil)));
  (* machine.go:11434 _testEof527 *) ((LEofN 527), (KCs 527 (KGoto LEof KNil)));
  (* machine.go:11437 _testEof528 *) ((LEofN 528), (KCs 528 (KGoto LEof KNil)));
  (* machine.go:11440 _testEof529 *) ((LEofN 529), (KCs 529 (KGoto LEof KNil)));
  (* machine.go:11443 _testEof530 *) ((LEofN 530), (KCs 530 (KGoto LEof KNil)));
  (* machine.go:11446 _testEof531 *) ((LEofN 531), (KCs 531 (KGoto LEof KNil)));
  (* machine.go:11449 _testEof532 *) ((LEofN 532), (KCs 532 (KGoto LEof KNil)));
  (* machine.go:11452 _testEof533 *) ((LEofN 533), (KCs 533 (KGoto LEof KNil)));
  (* machine.go:11455 _testEof534 *) ((LEofN 534), (KCs 534 (KGoto LEof KNil)));
  (* machine.go:11458 _testEof535 *) ((LEofN 535), (KCs 535 (KGoto LEof KNil)));
  (* machine.go:11461 _testEof536 *) ((LEofN 536), (KCs 536 (KGoto LEof KNil)));
  (* machine.go:11464 _testEof537 *) ((LEofN 537), (KCs 537 (KGoto LEof KNil)));
  (* machine.go:11467 _testEof538 *) ((LEofN 538), (KCs 538 (KGoto LEof KNil)));
  (* machine.go:11470 _testEof539 *) ((LEofN 539), (KCs 539 (KGoto LEof KNil)));
  (* machine.go:11473 _testEof540 *) ((LEofN 540), (KCs 540 (KGoto LEof KNil)));
  (* machine.go:11476 _testEof541 *) ((LEofN 541), (KCs 541 (KGoto LEof KNil)));
  (* machine.go:11479 _testEof542 *) ((LEofN 542), (KCs 542 (KGoto LEof KNil)));
  (* machine.go:11482 _testEof543 *) ((LEofN 543), (KCs 543 (KGoto LEof KNil)));
  (* machine.go:11485 _testEof544 *) ((LEofN 544), (KCs 544 (KGoto LEof KNil)));
  (* machine.go:11488 _testEof545 *) ((LEofN 545), (KCs 545 (KGoto LEof KNil)));
  (* machine.go:11491 _testEof546 *) ((LEofN 546), (KCs 546 (KGoto LEof KNil)));
  (* machine.go:11494 _testEof547 *) ((LEofN 547), (KCs 547 (KGoto LEof KNil)));
  (* machine.go:11497 _testEof548 *) ((LEofN 548), (KCs 548 (KGoto LEof KNil)));
  (* machine.go:11500 _testEof549 *) ((LEofN 549), (KCs 549 (KGoto LEof KNil)));
  (* machine.go:11503 _testEof550 *) ((LEofN 550), (KCs 550 (KGoto LEof KNil)));
  (* machine.go:11506 _testEof551 *) ((LEofN 551), (KCs 551 (KGoto LEof KNil)));
  (* machine.go:11509 _testEof552 *) ((LEofN 552), (KCs 552 (KGoto LEof KNil)));
  (* machine.go:11512 _testEof553 *) ((LEofN 553), (KCs 553 (KGoto LEof KNil)));
  (* machine.go:11515 _testEof554 *) ((LEofN 554), (KCs 554 (KGoto LEof KNil)));
  (* machine.go:11518 _testEof555 *) ((LEofN 555), (KCs 555 (KGoto LEof KNil)));
  (* machine.go:11521 _testEof556 *) ((LEofN 556), (KCs 556 (KGoto LEof KNil)));
  (* machine.go:11524 _testEof557 *) ((LEofN 557), (KCs 557 (KGoto LEof KNil)));
  (* machine.go:11527 _testEof558 *) ((LEofN 558), (KCs 558 (KGoto LEof KNil)));
  (* machine.go:11530 _testEof559 *) ((LEofN 559), (KCs 559 (KGoto LEof KNil)));
  (* machine.go:11533 _testEof560 *) ((LEofN 560), (KCs 560 (KGoto LEof KNil)));
  (* machine.go:11536 _testEof561 *) ((LEofN 561), (KCs 561 (KGoto LEof KNil)));
  (* machine.go:11539 _testEof562 *) ((LEofN 562), (KCs 562 (KGoto LEof KNil)));
  (* machine.go:11542 _testEof563 *) ((LEofN 563), (KCs 563 (KGoto LEof KNil)));
  (* machine.go:11545 _testEof564 *) ((LEofN 564), (KCs 564 (KGoto LEof KNil)));
  (* machine.go:11548 _testEof565 *) ((LEofN 565), (KCs 565 (KGoto LEof KNil)));
  (* machine.go:11551 _testEof566 *) ((LEofN 566), (KCs 566 (KGoto LEof KNil)));
  (* machine.go:11554 _testEof567 *) ((LEofN 567), (KCs 567 (KGoto LEof KNil)));
  (* machine.go:11557 _testEof568 *) ((LEofN 568), (KCs 568 (KGoto LEof KNil)));
  (* machine.go:11560 _testEof569 *) ((LEofN 569), (KCs 569 (KGoto LEof KNil)));
  (* machine.go:11563 _testEof570 *) ((LEofN 570), (KCs 570 (KGoto LEof KNil)));
  (* machine.go:11566 _testEof571 *) ((LEofN 571), (KCs 571 (KGoto LEof KNil)));
  (* machine.go:11569 _testEof572 *) ((LEofN 572), (KCs 572 (KGoto LEof KNil)))
].

(* /repo/rfc5424/machine.go *)
Definition prog5424_31 : list (label * code act cnd) := [
  (* machine.go:11572 _testEof573 *) ((LEofN 573), (KCs 573 (KGoto LEof KNil)));
  (* machine.go:11575 _testEof574 *) ((LEofN 574), (KCs 574 (KGoto LEof KNil)));
  (* machine.go:11578 _testEof575 *) ((LEofN 575), (KCs 575 (KGoto LEof KNil)));
  (* machine.go:11581 _testEof576 *) ((LEofN 576), (KCs 576 (KGoto LEof KNil)));
  (* machine.go:11584 _testEof577 *) ((LEofN 577), (KCs 577 (KGoto LEof KNil)));
  (* machine.go:11587 _testEof578 *) ((LEofN 578), (KCs 578 (KGoto LEof KNil)));
  (* machine.go:11590 _testEof579 *) ((LEofN 579), (KCs 579 (KGoto LEof KNil)));
  (* machine.go:11593 _testEof580 *) ((LEofN 580), (KCs 580 (KGoto LEof KNil)));
  (* machine.go:11596 _testEof581 *) ((LEofN 581), (KCs 581 (KGoto LEof KNil)));
  (* machine.go:11599 _testEof582 *) ((LEofN 582), (KCs 582 (KGoto LEof KNil)));
  (* machine.go:11602 _testEof583 *) ((LEofN 583), (KCs 583 (KGoto LEof KNil)));
  (* machine.go:11605 _testEof584 *) ((LEofN 584), (KCs 584 (KGoto LEof KNil)));
  (* machine.go:11608 _testEof585 *) ((LEofN 585), (KCs 585 (KGoto LEof KNil)));
  (* machine.go:11611 _testEof586 *) ((LEofN 586), (KCs 586 (KGoto LEof KNil)));
  (* machine.go:11614 _testEof587 *) ((LEofN 587), (KCs 587 (KGoto LEof KNil)));
  (* machine.go:11617 _testEof588 *) ((LEofN 588), (KCs 588 (KGoto LEof KNil)));
  (* machine.go:11620 _testEof589 *) ((LEofN 589), (KCs 589 (KGoto LEof KNil)));
  (* machine.go:11623 _testEof590 *) ((LEofN 590), (KCs 590 (KGoto LEof KNil)));
  (* machine.go:11626 _testEof591 *) ((LEofN 591), (KCs 591 (KGoto LEof KNil)));
  (* machine.go:11629 _testEof592 *) ((LEofN 592), (KCs 592 (KGoto LEof KNil)));
  (* machine.go:11632 _testEof593 *) ((LEofN 593), (KCs 593 (KGoto LEof KNil)));
  (* machine.go:11635 _testEof594 *) ((LEofN 594), (KCs 594 (KGoto LEof KNil)));
  (* machine.go:11638 _testEof595 *) ((LEofN 595), (KCs 595 (KGoto LEof KNil)));
  (* machine.go:11641 _testEof607 *) ((LEofN 607), (KCs 607 (KGoto LEof KNil)));
  (* machine.go:11644 _testEof608 *) ((LEofN 608), (KCs 608 (KGoto LEof KNil)));
  (* machine.go:11647 _testEof609 *) ((LEofN 609), (KCs 609 (KGoto LEof KNil)));
  (* machine.go:11650 _testEof610 *) ((LEofN 610), (KCs 610 (KGoto LEof KNil)));
  (* machine.go:11653 _testEof611 *) ((LEofN 611), (KCs 611 (KGoto LEof KNil)));
  (* machine.go:11656 _testEof612 *) ((LEofN 612), (KCs 612 (KGoto LEof KNil)));
  (* machine.go:11659 _testEof613 *) ((LEofN 613), (KCs 613 (KGoto LEof KNil)));
  (* machine.go:11662 _testEof596 *) ((LEofN 596), (KCs 596 (KGoto LEof KNil)));
  (* machine.go:11665 _testEof597 *) ((LEofN 597), (KCs 597 (KGoto LEof KNil)));
  (* machine.go:11668 _testEof598 *) ((LEofN 598), (KCs 598 (KGoto LEof KNil)));
  (* machine.go:11671 _testEof599 *) ((LEofN 599), (KCs 599 (KGoto LEof KNil)));
  (* machine.go:11674 _testEof600 *) ((LEofN 600), (KCs 600 (KGoto LEof KNil)));
  (* machine.go:11677 _testEof601 *) ((LEofN 601), (KCs 601 (KGoto LEof KNil)));
  (* machine.go:11680 _testEof602 *) ((LEofN 602), (KCs 602 (KGoto LEof KNil)));
  (* machine.go:11683 _testEof614 *) ((LEofN 614), (KCs 614 (KGoto LEof KNil)));
  (* machine.go:11687 _testEof *) (LEof, (KIf CPe (KBlk (KIf (CCs [608; 610; 611; 612; 613]) (KAct AMessage KNil) (KIf (CCs [1]) (KAct (AErr EPri) (KDec (KBlk (KGoto (LSt 614) KNil) KNil))) (KIf (CCs [15; 95; 96; 97; 98; 99; 100; 101; 102; 103; 104; 105; 106; 107; 108; 109; 110; 111; 112; 113; 114; 115; 116; 117; 118; 119; 120; 121; 122; 123; 124; 125]) (KAct (AErr EMsgID) (KDec (KBlk (KGoto (LSt 614) KNil) KNil))) (KIf (CCs [16]) (KAct (AErr EStructuredData) (KDec (KBlk (KGoto (LSt 614) KNil) KNil))) (KIf (CCs [596; 597; 598; 599; 600; 601; 602]) (KIf (CExt CMsgat) (KAct AMessagePartial KNil) KNil (KIf (CExt CCompliant) (KAct (AErr EMsgNotCompliant) KNil) (KAct (AErr EMsg) KNil) (KDec (KBlk (KGoto (LSt 614) KNil) KNil)))) (KIf (CCs [7]) (KAct (AErr EParse) (KDec (KBlk (KGoto (LSt 614) KNil) KNil))) (KIf (CCs [5]) (KAct AVersion (KAct (AErr EParse) (KDec (KBlk (KGoto (LSt 614) KNil) KNil)))) (KIf (CCs [578]) (KAct ATimeParse (KIf (CExt CTimeErr) (KAct AErrTime (KDec (KBlk (KGoto (LSt 614) KNil) KNil))) (KAct ATimestamp (KAct ATimestampSet KNil)) (KAct (AErr EParse) (KDec (KBlk (KGoto (LSt 614) KNil) KNil))))) (KIf (CCs [4]) (KAct (AErr EVersion) (KDec (KBlk (KGoto (LSt 614) KNil) (KAct (AErr EParse) (KDec (KBlk (KGoto (LSt 614) KNil) KNil)))))) (KIf (CCs [6; 554; 555; 556; 557; 558; 559; 560; 561; 562; 563; 564; 565; 566; 567; 568; 569; 570; 571; 572; 573; 574; 575; 576; 577; 579; 580; 581; 582; 583; 584; 585; 586; 587; 588; 589; 590]) (KAct (AErr ETimestamp) (KDec (KBlk (KGoto (LSt 614) KNil) (KAct (AErr EParse) (KDec (KBlk (KGoto (LSt 614) KNil) KNil)))))) (KIf (CCs [8; 9; 300; 301; 302; 303; 304; 305; 306; 307; 308; 309; 310; 311; 312; 313; 314; 315; 316; 317; 318; 319; 320; 321; 322; 323; 324; 325; 326; 327; 328; 329; 330; 331; 332; 333; 334; 335; 336; 337; 338; 339; 340; 341; 342; 343; 344; 345; 346; 347; 348; 349; 350; 351; 352; 353; 354; 355; 356; 357; 358; 359; 360; 361; 362; 363; 364; 365; 366; 367; 368; 369; 370; 371; 372; 373; 374; 375; 376; 377; 378; 379; 380; 381; 382; 383; 384; 385; 386; 387; 388; 389; 390; 391; 392; 393; 394; 395; 396; 397; 398; 399; 400; 401; 402; 403; 404; 405; 406; 407; 408; 409; 410; 411; 412; 413; 414; 415; 416; 417; 418; 419; 420; 421; 422; 423; 424; 425; 426; 427; 428; 429; 430; 431; 432; 433; 434; 435; 436; 437; 438; 439; 440; 441; 442; 443; 444; 445; 446; 447; 448; 449; 450; 451; 452; 453; 454; 455; 456; 457; 458; 459; 460; 461; 462; 463; 464; 465; 466; 467; 468; 469; 470; 471; 472; 473; 474; 475; 476; 477; 478; 479; 480; 481; 482; 483; 484; 485; 486; 487; 488; 489; 490; 491; 492; 493; 494; 495; 496; 497; 498; 499; 500; 501; 502; 503; 504; 505; 506; 507; 508; 509; 510; 511; 512; 513; 514; 515; 516; 517; 518; 519; 520; 521; 522; 523; 524; 525; 526; 527; 528; 529; 530; 531; 532; 533; 534; 535; 536; 537; 538; 539; 540; 541; 542; 543; 544; 545; 546; 547; 548; 549; 550; 551; 552; 553]) (KAct (AErr EHostname) (KDec (KBlk (KGoto (LSt 614) KNil) (KAct (AErr EParse) (KDec (KBlk (KGoto (LSt 614) KNil) KNil)))))) (KIf (CCs [10; 11; 253; 254; 255; 256; 257; 258; 259; 260; 261; 262; 263; 264; 265; 266; 267; 268; 269; 270; 271; 272; 273; 274; 275; 276; 277; 278; 279; 280; 281; 282; 283; 284; 285; 286; 287; 288; 289; 290; 291; 292; 293; 294; 295; 296; 297; 298; 299]) (KAct (AErr EAppname) (KDec (KBlk (KGoto (LSt 614) KNil) (KAct (AErr EParse) (KDec (KBlk (KGoto (LSt 614) KNil) KNil)))))) (KIf (CCs [12; 13; 126; 127; 128; 129; 130; 131; 132; 133; 134; 135; 136; 137; 138; 139; 140; 141; 142; 143; 144; 145; 146; 147; 148; 149; 150; 151; 152; 153; 154; 155; 156; 157; 158; 159; 160; 161; 162; 163; 164; 165; 166; 167; 168; 169; 170; 171; 172; 173; 174; 175; 176; 177; 178; 179; 180; 181; 182; 183; 184; 185; 186; 187; 188; 189; 190; 191; 192; 193; 194; 195; 196; 197; 198; 199; 200; 201; 202; 203; 204; 205; 206; 207; 208; 209; 210; 211; 212; 213; 214; 215; 216; 217; 218; 219; 220; 221; 222; 223; 224; 225; 226; 227; 228; 229; 230; 231; 232; 233; 234; 235; 236; 237; 238; 239; 240; 241; 242; 243; 244; 245; 246; 247; 248; 249; 250; 251; 252]) (KAct (AErr EProcID) (KDec (KBlk (KGoto (LSt 614) KNil) (KAct (AErr EParse) (KDec (KBlk (KGoto (LSt 614) KNil) KNil)))))) (KIf (CCs [14]) (KAct (AErr EMsgID) (KDec (KBlk (KGoto (LSt 614) KNil) (KAct (AErr EParse) (KDec (KBlk (KGoto (LSt 614) KNil) KNil)))))) (KIf (CCs [17]) (KAct ASdDelElem (KIf (CExt CSdEmpty) (KAct (AHasElements false) KNil) KNil (KAct (AErr ESdID) (KDec (KBlk (KGoto (LSt 614) KNil) (KAct (AErr EStructuredData) (KDec (KBlk (KGoto (LSt 614) KNil) KNil)))))))) (KIf (CCs [19; 20; 21; 22; 23; 24; 25; 26; 27; 28; 29; 30; 31; 32; 33; 34; 35; 36; 37; 38; 39; 40; 41; 42; 43; 44; 45; 46; 47; 48; 49; 50; 51; 52; 55; 57; 58; 59; 60; 61; 62; 63]) (KIf (CExt CSdNonEmpty) (KAct ASdDelParam KNil) KNil (KAct (AErr ESdParam) (KDec (KBlk (KGoto (LSt 614) KNil) (KAct (AErr EStructuredData) (KDec (KBlk (KGoto (LSt 614) KNil) KNil))))))) (KIf (CCs [607; 609]) (KAct APb (KAct AMsgat (KAct AMessage KNil))) (KIf (CCs [18; 64; 65; 66; 67; 68; 69; 70; 71; 72; 73; 74; 75; 76; 77; 78; 79; 80; 81; 82; 83; 84; 85; 86; 87; 88; 89; 90; 91; 92; 93; 94]) (KAct AIdLookup (KIf (CExt CIdExists) (KAct (AErr ESdIDDuplicated) (KDec (KBlk (KGoto (LSt 614) KNil) KNil))) (KAct AIdLocal (KAct ASdNewElem (KAct (AHasElements true) (KAct ACurElem KNil)))) (KAct ASdDelElem (KIf (CExt CSdEmpty) (KAct (AHasElements false) KNil) KNil (KAct (AErr ESdID) (KDec (KBlk (KGoto (LSt 614) KNil) (KAct (AErr EStructuredData) (KDec (KBlk (KGoto (LSt 614) KNil) KNil)))))))))) (KIf (CCs [2; 3; 593; 594; 595]) (KAct (AErr EPrival) (KDec (KBlk (KGoto (LSt 614) KNil) (KAct (AErr EPri) (KDec (KBlk (KGoto (LSt 614) KNil) (KAct (AErr EParse) (KDec (KBlk (KGoto (LSt 614) KNil) KNil))))))))) (KIf (CCs [591; 592]) (KAct (AErr EVersion) (KDec (KBlk (KGoto (LSt 614) KNil) (KAct AVersion (KAct (AErr EParse) (KDec (KBlk (KGoto (LSt 614) KNil) KNil))))))) (KIf (CCs [53; 54; 56]) (KAct (AErr EEscape) (KDec (KBlk (KGoto (LSt 614) KNil) (KIf (CExt CSdNonEmpty) (KAct ASdDelParam KNil) KNil (KAct (AErr ESdParam) (KDec (KBlk (KGoto (LSt 614) KNil) (KAct (AErr EStructuredData) (KDec (KBlk (KGoto (LSt 614) KNil) KNil)))))))))) KNil KNil) KNil) KNil) KNil) KNil) KNil) KNil) KNil) KNil) KNil) KNil) KNil) KNil) KNil) KNil) KNil) KNil) KNil) KNil) KNil) KNil) KNil) KNil KNil));
  (* machine.go:12032 _out *) (LOut, KNil)
].

(* /repo/rfc5424/machine.go lines 129-12034: all blocks in source order *)
Definition prog5424 : list (label * code act cnd) :=
  prog5424_0 ++ prog5424_1 ++ prog5424_2 ++ prog5424_3 ++ prog5424_4 ++ prog5424_5 ++ prog5424_6 ++ prog5424_7 ++ prog5424_8 ++ prog5424_9 ++ prog5424_10 ++ prog5424_11 ++ prog5424_12 ++ prog5424_13 ++ prog5424_14 ++ prog5424_15 ++ prog5424_16 ++ prog5424_17 ++ prog5424_18 ++ prog5424_19 ++ prog5424_20 ++ prog5424_21 ++ prog5424_22 ++ prog5424_23 ++ prog5424_24 ++ prog5424_25 ++ prog5424_26 ++ prog5424_27 ++ prog5424_28 ++ prog5424_29 ++ prog5424_30 ++ prog5424_31.
