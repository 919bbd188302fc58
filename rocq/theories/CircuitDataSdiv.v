(** Generated: the circuit file yacl/io/circuit/data/divide64.txt, gate by gate
    in the order of the file, and the parts of the division found in it. *)
From Coq Require Import NArith ZArith List.
From Verif Require Import CircuitModel SdivProof.
Import ListNotations.
Open Scope N_scope.

Definition divide64_gates : list gate := [
  G1 INV 62 17197; G1 INV 61 17196; G1 INV 60 17195; G1 INV 59 17194; G1 INV 58 17193; G1 INV 57 17192;
  G1 INV 56 17191; G1 INV 55 17190; G1 INV 54 17189; G1 INV 53 17188; G1 INV 52 17187; G1 INV 51 17186;
  G1 INV 50 17185; G1 INV 49 17184; G1 INV 48 17183; G1 INV 47 17182; G1 INV 46 17181; G1 INV 45 17180;
  G1 INV 44 17179; G1 INV 43 17178; G1 INV 42 17177; G1 INV 41 17176; G1 INV 40 17175; G1 INV 39 17174;
  G1 INV 38 17173; G1 INV 37 17172; G1 INV 36 17171; G1 INV 35 17170; G1 INV 34 17169; G1 INV 33 17168;
  G1 INV 32 17167; G1 INV 31 17166; G1 INV 30 17165; G1 INV 29 17164; G1 INV 28 17163; G1 INV 27 17162;
  G1 INV 26 17161; G1 INV 25 17160; G1 INV 24 17159; G1 INV 23 17158; G1 INV 22 17157; G1 INV 21 17156;
  G1 INV 20 17155; G1 INV 19 17154; G1 INV 18 17153; G1 INV 17 17152; G1 INV 16 17151; G1 INV 15 17150;
  G1 INV 14 17149; G1 INV 13 17148; G1 INV 12 17147; G1 INV 11 17146; G1 INV 10 17145; G1 INV 9 17144;
  G1 INV 8 17143; G1 INV 7 17142; G1 INV 6 17141; G1 INV 5 17140; G1 INV 4 17139; G1 INV 3 17138;
  G1 INV 2 17137; G1 INV 1 17136; G1 INV 0 17135; G2 XOR 1 17135 17072; G1 INV 17072 16756;
  G2 XOR 17136 17135 4286; G2 AND 4286 17135 4285; G2 XOR 4285 17135 17010; G2 XOR 2 17010 17073;
  G1 INV 17073 16757; G2 XOR 17137 17010 4284; G2 AND 4284 17010 4283; G2 XOR 4283 17010 17011;
  G2 XOR 3 17011 17074; G1 INV 17074 16758; G2 XOR 17138 17011 4282; G2 AND 4282 17011 4281;
  G2 XOR 4281 17011 17012; G2 XOR 4 17012 17075; G1 INV 17075 16759; G2 XOR 17139 17012 4280;
  G2 AND 4280 17012 4279; G2 XOR 4279 17012 17013; G2 XOR 5 17013 17076; G1 INV 17076 16760;
  G2 XOR 17140 17013 4278; G2 AND 4278 17013 4277; G2 XOR 4277 17013 17014; G2 XOR 6 17014 17077;
  G1 INV 17077 16761; G2 XOR 17141 17014 4276; G2 AND 4276 17014 4275; G2 XOR 4275 17014 17015;
  G2 XOR 7 17015 17078; G1 INV 17078 16762; G2 XOR 17142 17015 4274; G2 AND 4274 17015 4273;
  G2 XOR 4273 17015 17016; G2 XOR 8 17016 17079; G1 INV 17079 16763; G2 XOR 17143 17016 4272;
  G2 AND 4272 17016 4271; G2 XOR 4271 17016 17017; G2 XOR 9 17017 17080; G1 INV 17080 16764;
  G2 XOR 17144 17017 4270; G2 AND 4270 17017 4269; G2 XOR 4269 17017 17018; G2 XOR 10 17018 17081;
  G1 INV 17081 16765; G2 XOR 17145 17018 4268; G2 AND 4268 17018 4267; G2 XOR 4267 17018 17019;
  G2 XOR 11 17019 17082; G1 INV 17082 16766; G2 XOR 17146 17019 4266; G2 AND 4266 17019 4265;
  G2 XOR 4265 17019 17020; G2 XOR 12 17020 17083; G1 INV 17083 16767; G2 XOR 17147 17020 4264;
  G2 AND 4264 17020 4263; G2 XOR 4263 17020 17021; G2 XOR 13 17021 17084; G1 INV 17084 16768;
  G2 XOR 17148 17021 4262; G2 AND 4262 17021 4261; G2 XOR 4261 17021 17022; G2 XOR 14 17022 17085;
  G1 INV 17085 16769; G2 XOR 17149 17022 4260; G2 AND 4260 17022 4259; G2 XOR 4259 17022 17023;
  G2 XOR 15 17023 17086; G1 INV 17086 16770; G2 XOR 17150 17023 4258; G2 AND 4258 17023 4257;
  G2 XOR 4257 17023 17024; G2 XOR 16 17024 17087; G1 INV 17087 16771; G2 XOR 17151 17024 4256;
  G2 AND 4256 17024 4255; G2 XOR 4255 17024 17025; G2 XOR 17 17025 17088; G1 INV 17088 16772;
  G2 XOR 17152 17025 4254; G2 AND 4254 17025 4253; G2 XOR 4253 17025 17026; G2 XOR 18 17026 17089;
  G1 INV 17089 16773; G2 XOR 17153 17026 4252; G2 AND 4252 17026 4251; G2 XOR 4251 17026 17027;
  G2 XOR 19 17027 17090; G1 INV 17090 16774; G2 XOR 17154 17027 4250; G2 AND 4250 17027 4249;
  G2 XOR 4249 17027 17028; G2 XOR 20 17028 17091; G1 INV 17091 16775; G2 XOR 17155 17028 4248;
  G2 AND 4248 17028 4247; G2 XOR 4247 17028 17029; G2 XOR 21 17029 17092; G1 INV 17092 16776;
  G2 XOR 17156 17029 4246; G2 AND 4246 17029 4245; G2 XOR 4245 17029 17030; G2 XOR 22 17030 17093;
  G1 INV 17093 16777; G2 XOR 17157 17030 4244; G2 AND 4244 17030 4243; G2 XOR 4243 17030 17031;
  G2 XOR 23 17031 17094; G1 INV 17094 16778; G2 XOR 17158 17031 4242; G2 AND 4242 17031 4241;
  G2 XOR 4241 17031 17032; G2 XOR 24 17032 17095; G1 INV 17095 16779; G2 XOR 17159 17032 4240;
  G2 AND 4240 17032 4239; G2 XOR 4239 17032 17033; G2 XOR 25 17033 17096; G1 INV 17096 16780;
  G2 XOR 17160 17033 4238; G2 AND 4238 17033 4237; G2 XOR 4237 17033 17034; G2 XOR 26 17034 17097;
  G1 INV 17097 16781; G2 XOR 17161 17034 4236; G2 AND 4236 17034 4235; G2 XOR 4235 17034 17035;
  G2 XOR 27 17035 17098; G1 INV 17098 16782; G2 XOR 17162 17035 4234; G2 AND 4234 17035 4233;
  G2 XOR 4233 17035 17036; G2 XOR 28 17036 17099; G1 INV 17099 16783; G2 XOR 17163 17036 4232;
  G2 AND 4232 17036 4231; G2 XOR 4231 17036 17037; G2 XOR 29 17037 17100; G1 INV 17100 16784;
  G2 XOR 17164 17037 4230; G2 AND 4230 17037 4229; G2 XOR 4229 17037 17038; G2 XOR 30 17038 17101;
  G1 INV 17101 16785; G2 XOR 17165 17038 4228; G2 AND 4228 17038 4227; G2 XOR 4227 17038 17039;
  G2 XOR 31 17039 17102; G1 INV 17102 16786; G2 XOR 17166 17039 4226; G2 AND 4226 17039 4225;
  G2 XOR 4225 17039 17040; G2 XOR 32 17040 17103; G1 INV 17103 16787; G2 XOR 17167 17040 4224;
  G2 AND 4224 17040 4223; G2 XOR 4223 17040 17041; G2 XOR 33 17041 17104; G1 INV 17104 16788;
  G2 XOR 17168 17041 4222; G2 AND 4222 17041 4221; G2 XOR 4221 17041 17042; G2 XOR 34 17042 17105;
  G1 INV 17105 16789; G2 XOR 17169 17042 4220; G2 AND 4220 17042 4219; G2 XOR 4219 17042 17043;
  G2 XOR 35 17043 17106; G1 INV 17106 16790; G2 XOR 17170 17043 4218; G2 AND 4218 17043 4217;
  G2 XOR 4217 17043 17044; G2 XOR 36 17044 17107; G1 INV 17107 16791; G2 XOR 17171 17044 4216;
  G2 AND 4216 17044 4215; G2 XOR 4215 17044 17045; G2 XOR 37 17045 17108; G1 INV 17108 16792;
  G2 XOR 17172 17045 4214; G2 AND 4214 17045 4213; G2 XOR 4213 17045 17046; G2 XOR 38 17046 17109;
  G1 INV 17109 16793; G2 XOR 17173 17046 4212; G2 AND 4212 17046 4211; G2 XOR 4211 17046 17047;
  G2 XOR 39 17047 17110; G1 INV 17110 16794; G2 XOR 17174 17047 4210; G2 AND 4210 17047 4209;
  G2 XOR 4209 17047 17048; G2 XOR 40 17048 17111; G1 INV 17111 16795; G2 XOR 17175 17048 4208;
  G2 AND 4208 17048 4207; G2 XOR 4207 17048 17049; G2 XOR 41 17049 17112; G1 INV 17112 16796;
  G2 XOR 17176 17049 4206; G2 AND 4206 17049 4205; G2 XOR 4205 17049 17050; G2 XOR 42 17050 17113;
  G1 INV 17113 16797; G2 XOR 17177 17050 4204; G2 AND 4204 17050 4203; G2 XOR 4203 17050 17051;
  G2 XOR 43 17051 17114; G1 INV 17114 16798; G2 XOR 17178 17051 4202; G2 AND 4202 17051 4201;
  G2 XOR 4201 17051 17052; G2 XOR 44 17052 17115; G1 INV 17115 16799; G2 XOR 17179 17052 4200;
  G2 AND 4200 17052 4199; G2 XOR 4199 17052 17053; G2 XOR 45 17053 17116; G1 INV 17116 16800;
  G2 XOR 17180 17053 4198; G2 AND 4198 17053 4197; G2 XOR 4197 17053 17054; G2 XOR 46 17054 17117;
  G1 INV 17117 16801; G2 XOR 17181 17054 4196; G2 AND 4196 17054 4195; G2 XOR 4195 17054 17055;
  G2 XOR 47 17055 17118; G1 INV 17118 16802; G2 XOR 17182 17055 4194; G2 AND 4194 17055 4193;
  G2 XOR 4193 17055 17056; G2 XOR 48 17056 17119; G1 INV 17119 16803; G2 XOR 17183 17056 4192;
  G2 AND 4192 17056 4191; G2 XOR 4191 17056 17057; G2 XOR 49 17057 17120; G1 INV 17120 16804;
  G2 XOR 17184 17057 4190; G2 AND 4190 17057 4189; G2 XOR 4189 17057 17058; G2 XOR 50 17058 17121;
  G1 INV 17121 16805; G2 XOR 17185 17058 4188; G2 AND 4188 17058 4187; G2 XOR 4187 17058 17059;
  G2 XOR 51 17059 17122; G1 INV 17122 16806; G2 XOR 17186 17059 4186; G2 AND 4186 17059 4185;
  G2 XOR 4185 17059 17060; G2 XOR 52 17060 17123; G1 INV 17123 16807; G2 XOR 17187 17060 4184;
  G2 AND 4184 17060 4183; G2 XOR 4183 17060 17061; G2 XOR 53 17061 17124; G1 INV 17124 16808;
  G2 XOR 17188 17061 4182; G2 AND 4182 17061 4181; G2 XOR 4181 17061 17062; G2 XOR 54 17062 17125;
  G1 INV 17125 16809; G2 XOR 17189 17062 4180; G2 AND 4180 17062 4179; G2 XOR 4179 17062 17063;
  G2 XOR 55 17063 17126; G1 INV 17126 16810; G2 XOR 17190 17063 4178; G2 AND 4178 17063 4177;
  G2 XOR 4177 17063 17064; G2 XOR 56 17064 17127; G1 INV 17127 16811; G2 XOR 17191 17064 4176;
  G2 AND 4176 17064 4175; G2 XOR 4175 17064 17065; G2 XOR 57 17065 17128; G1 INV 17128 16812;
  G2 XOR 17192 17065 4174; G2 AND 4174 17065 4173; G2 XOR 4173 17065 17066; G2 XOR 58 17066 17129;
  G1 INV 17129 16813; G2 XOR 17193 17066 4172; G2 AND 4172 17066 4171; G2 XOR 4171 17066 17067;
  G2 XOR 59 17067 17130; G1 INV 17130 16814; G2 XOR 17194 17067 4170; G2 AND 4170 17067 4169;
  G2 XOR 4169 17067 17068; G2 XOR 60 17068 17131; G1 INV 17131 16815; G2 XOR 17195 17068 4168;
  G2 AND 4168 17068 4167; G2 XOR 4167 17068 17069; G2 XOR 61 17069 17132; G1 INV 17132 16816;
  G2 XOR 17196 17069 4166; G2 AND 4166 17069 4165; G2 XOR 4165 17069 17070; G2 XOR 62 17070 17133;
  G1 INV 17133 16817; G2 XOR 17197 17070 4164; G2 AND 4164 17070 4163; G2 XOR 4163 17070 17071;
  G2 XOR 63 17071 17134; G1 INV 17134 16818; G1 INV 63 4287; G2 AND 0 63 17262; G2 AND 0 4287 17198;
  G2 XOR 17262 17198 16819; G2 AND 16756 63 17263; G2 AND 1 4287 17199; G2 XOR 17263 17199 16820;
  G2 AND 16757 63 17264; G2 AND 2 4287 17200; G2 XOR 17264 17200 16821; G2 AND 16758 63 17265;
  G2 AND 3 4287 17201; G2 XOR 17265 17201 16822; G2 AND 16759 63 17266; G2 AND 4 4287 17202;
  G2 XOR 17266 17202 16823; G2 AND 16760 63 17267; G2 AND 5 4287 17203; G2 XOR 17267 17203 16824;
  G2 AND 16761 63 17268; G2 AND 6 4287 17204; G2 XOR 17268 17204 16825; G2 AND 16762 63 17269;
  G2 AND 7 4287 17205; G2 XOR 17269 17205 16826; G2 AND 16763 63 17270; G2 AND 8 4287 17206;
  G2 XOR 17270 17206 16827; G2 AND 16764 63 17271; G2 AND 9 4287 17207; G2 XOR 17271 17207 16828;
  G2 AND 16765 63 17272; G2 AND 10 4287 17208; G2 XOR 17272 17208 16829; G2 AND 16766 63 17273;
  G2 AND 11 4287 17209; G2 XOR 17273 17209 16830; G2 AND 16767 63 17274; G2 AND 12 4287 17210;
  G2 XOR 17274 17210 16831; G2 AND 16768 63 17275; G2 AND 13 4287 17211; G2 XOR 17275 17211 16832;
  G2 AND 16769 63 17276; G2 AND 14 4287 17212; G2 XOR 17276 17212 16833; G2 AND 16770 63 17277;
  G2 AND 15 4287 17213; G2 XOR 17277 17213 16834; G2 AND 16771 63 17278; G2 AND 16 4287 17214;
  G2 XOR 17278 17214 16835; G2 AND 16772 63 17279; G2 AND 17 4287 17215; G2 XOR 17279 17215 16836;
  G2 AND 16773 63 17280; G2 AND 18 4287 17216; G2 XOR 17280 17216 16837; G2 AND 16774 63 17281;
  G2 AND 19 4287 17217; G2 XOR 17281 17217 16838; G2 AND 16775 63 17282; G2 AND 20 4287 17218;
  G2 XOR 17282 17218 16839; G2 AND 16776 63 17283; G2 AND 21 4287 17219; G2 XOR 17283 17219 16840;
  G2 AND 16777 63 17284; G2 AND 22 4287 17220; G2 XOR 17284 17220 16841; G2 AND 16778 63 17285;
  G2 AND 23 4287 17221; G2 XOR 17285 17221 16842; G2 AND 16779 63 17286; G2 AND 24 4287 17222;
  G2 XOR 17286 17222 16843; G2 AND 16780 63 17287; G2 AND 25 4287 17223; G2 XOR 17287 17223 16844;
  G2 AND 16781 63 17288; G2 AND 26 4287 17224; G2 XOR 17288 17224 16845; G2 AND 16782 63 17289;
  G2 AND 27 4287 17225; G2 XOR 17289 17225 16846; G2 AND 16783 63 17290; G2 AND 28 4287 17226;
  G2 XOR 17290 17226 16847; G2 AND 16784 63 17291; G2 AND 29 4287 17227; G2 XOR 17291 17227 16848;
  G2 AND 16785 63 17292; G2 AND 30 4287 17228; G2 XOR 17292 17228 16849; G2 AND 16786 63 17293;
  G2 AND 31 4287 17229; G2 XOR 17293 17229 16850; G2 AND 16787 63 17294; G2 AND 32 4287 17230;
  G2 XOR 17294 17230 16851; G2 AND 16788 63 17295; G2 AND 33 4287 17231; G2 XOR 17295 17231 16852;
  G2 AND 16789 63 17296; G2 AND 34 4287 17232; G2 XOR 17296 17232 16853; G2 AND 16790 63 17297;
  G2 AND 35 4287 17233; G2 XOR 17297 17233 16854; G2 AND 16791 63 17298; G2 AND 36 4287 17234;
  G2 XOR 17298 17234 16855; G2 AND 16792 63 17299; G2 AND 37 4287 17235; G2 XOR 17299 17235 16856;
  G2 AND 16793 63 17300; G2 AND 38 4287 17236; G2 XOR 17300 17236 16857; G2 AND 16794 63 17301;
  G2 AND 39 4287 17237; G2 XOR 17301 17237 16858; G2 AND 16795 63 17302; G2 AND 40 4287 17238;
  G2 XOR 17302 17238 16859; G2 AND 16796 63 17303; G2 AND 41 4287 17239; G2 XOR 17303 17239 16860;
  G2 AND 16797 63 17304; G2 AND 42 4287 17240; G2 XOR 17304 17240 16861; G2 AND 16798 63 17305;
  G2 AND 43 4287 17241; G2 XOR 17305 17241 16862; G2 AND 16799 63 17306; G2 AND 44 4287 17242;
  G2 XOR 17306 17242 16863; G2 AND 16800 63 17307; G2 AND 45 4287 17243; G2 XOR 17307 17243 16864;
  G2 AND 16801 63 17308; G2 AND 46 4287 17244; G2 XOR 17308 17244 16865; G2 AND 16802 63 17309;
  G2 AND 47 4287 17245; G2 XOR 17309 17245 16866; G2 AND 16803 63 17310; G2 AND 48 4287 17246;
  G2 XOR 17310 17246 16867; G2 AND 16804 63 17311; G2 AND 49 4287 17247; G2 XOR 17311 17247 16868;
  G2 AND 16805 63 17312; G2 AND 50 4287 17248; G2 XOR 17312 17248 16869; G2 AND 16806 63 17313;
  G2 AND 51 4287 17249; G2 XOR 17313 17249 16870; G2 AND 16807 63 17314; G2 AND 52 4287 17250;
  G2 XOR 17314 17250 16871; G2 AND 16808 63 17315; G2 AND 53 4287 17251; G2 XOR 17315 17251 16872;
  G2 AND 16809 63 17316; G2 AND 54 4287 17252; G2 XOR 17316 17252 16873; G2 AND 16810 63 17317;
  G2 AND 55 4287 17253; G2 XOR 17317 17253 16874; G2 AND 16811 63 17318; G2 AND 56 4287 17254;
  G2 XOR 17318 17254 16875; G2 AND 16812 63 17319; G2 AND 57 4287 17255; G2 XOR 17319 17255 16876;
  G2 AND 16813 63 17320; G2 AND 58 4287 17256; G2 XOR 17320 17256 16877; G2 AND 16814 63 17321;
  G2 AND 59 4287 17257; G2 XOR 17321 17257 16878; G2 AND 16815 63 17322; G2 AND 60 4287 17258;
  G2 XOR 17322 17258 16879; G2 AND 16816 63 17323; G2 AND 61 4287 17259; G2 XOR 17323 17259 16880;
  G2 AND 16817 63 17324; G2 AND 62 4287 17260; G2 XOR 17324 17260 16881; G2 AND 16818 63 17325;
  G2 AND 63 4287 17261; G2 XOR 17325 17261 16882; G1 INV 127 16255; G2 AND 64 127 29549;
  G2 AND 64 16255 29485; G2 XOR 29549 29485 16946; G2 XOR 16820 16946 4161; G2 XOR 16821 16946 4098;
  G2 XOR 16822 16946 4035; G2 XOR 16823 16946 3972; G2 XOR 16824 16946 3909; G2 XOR 16825 16946 3846;
  G2 XOR 16826 16946 3783; G2 XOR 16827 16946 3720; G2 XOR 16828 16946 3657; G2 XOR 16829 16946 3594;
  G2 XOR 16830 16946 3531; G2 XOR 16831 16946 3468; G2 XOR 16832 16946 3405; G2 XOR 16833 16946 3342;
  G2 XOR 16834 16946 3279; G2 XOR 16835 16946 3216; G2 XOR 16836 16946 3153; G2 XOR 16837 16946 3090;
  G2 XOR 16838 16946 3027; G2 XOR 16839 16946 2964; G2 XOR 16840 16946 2901; G2 XOR 16841 16946 2838;
  G2 XOR 16842 16946 2775; G2 XOR 16843 16946 2712; G2 XOR 16844 16946 2649; G2 XOR 16845 16946 2586;
  G2 XOR 16846 16946 2523; G2 XOR 16847 16946 2460; G2 XOR 16848 16946 2397; G2 XOR 16849 16946 2334;
  G2 XOR 16850 16946 2271; G2 XOR 16851 16946 2208; G2 XOR 16852 16946 2145; G2 XOR 16853 16946 2082;
  G2 XOR 16854 16946 2019; G2 XOR 16855 16946 1956; G2 XOR 16856 16946 1893; G2 XOR 16857 16946 1830;
  G2 XOR 16858 16946 1767; G2 XOR 16859 16946 1704; G2 XOR 16860 16946 1641; G2 XOR 16861 16946 1578;
  G2 XOR 16862 16946 1515; G2 XOR 16863 16946 1452; G2 XOR 16864 16946 1389; G2 XOR 16865 16946 1326;
  G2 XOR 16866 16946 1263; G2 XOR 16867 16946 1200; G2 XOR 16868 16946 1137; G2 XOR 16869 16946 1074;
  G2 XOR 16870 16946 1011; G2 XOR 16871 16946 948; G2 XOR 16872 16946 885; G2 XOR 16873 16946 822;
  G2 XOR 16874 16946 759; G2 XOR 16875 16946 696; G2 XOR 16876 16946 633; G2 XOR 16877 16946 570;
  G2 XOR 16878 16946 507; G2 XOR 16879 16946 444; G2 XOR 16880 16946 381; G2 XOR 16881 16946 318;
  G2 AND 65 16255 29486; G2 AND 66 16255 29487; G2 AND 67 16255 29488; G2 AND 68 16255 29489;
  G2 AND 69 16255 29490; G2 AND 70 16255 29491; G2 AND 71 16255 29492; G2 AND 72 16255 29493;
  G2 AND 73 16255 29494; G2 AND 74 16255 29495; G2 AND 75 16255 29496; G2 AND 76 16255 29497;
  G2 AND 77 16255 29498; G2 AND 78 16255 29499; G2 AND 79 16255 29500; G2 AND 80 16255 29501;
  G2 AND 81 16255 29502; G2 AND 82 16255 29503; G2 AND 83 16255 29504; G2 AND 84 16255 29505;
  G2 AND 85 16255 29506; G2 AND 86 16255 29507; G2 AND 87 16255 29508; G2 AND 88 16255 29509;
  G2 AND 89 16255 29510; G2 AND 90 16255 29511; G2 AND 91 16255 29512; G2 AND 92 16255 29513;
  G2 AND 93 16255 29514; G2 AND 94 16255 29515; G2 AND 95 16255 29516; G2 AND 96 16255 29517;
  G2 AND 97 16255 29518; G2 AND 98 16255 29519; G2 AND 99 16255 29520; G2 AND 100 16255 29521;
  G2 AND 101 16255 29522; G2 AND 102 16255 29523; G2 AND 103 16255 29524; G2 AND 104 16255 29525;
  G2 AND 105 16255 29526; G2 AND 106 16255 29527; G2 AND 107 16255 29528; G2 AND 108 16255 29529;
  G2 AND 109 16255 29530; G2 AND 110 16255 29531; G2 AND 111 16255 29532; G2 AND 112 16255 29533;
  G2 AND 113 16255 29534; G2 AND 114 16255 29535; G2 AND 115 16255 29536; G2 AND 116 16255 29537;
  G2 AND 117 16255 29538; G2 AND 118 16255 29539; G2 AND 119 16255 29540; G2 AND 120 16255 29541;
  G2 AND 121 16255 29542; G2 AND 122 16255 29543; G2 AND 123 16255 29544; G2 AND 124 16255 29545;
  G2 AND 125 16255 29546; G2 AND 126 16255 29547; G2 AND 127 16255 29548; G1 INV 126 29800; G1 INV 125 29799;
  G1 INV 124 29798; G1 INV 123 29797; G1 INV 122 29796; G1 INV 121 29795; G1 INV 120 29794; G1 INV 119 29793;
  G1 INV 118 29792; G1 INV 117 29791; G1 INV 116 29790; G1 INV 115 29789; G1 INV 114 29788; G1 INV 113 29787;
  G1 INV 112 29786; G1 INV 111 29785; G1 INV 110 29784; G1 INV 109 29783; G1 INV 108 29782; G1 INV 107 29781;
  G1 INV 106 29780; G1 INV 105 29779; G1 INV 104 29778; G1 INV 103 29777; G1 INV 102 29776; G1 INV 101 29775;
  G1 INV 100 29774; G1 INV 99 29773; G1 INV 98 29772; G1 INV 97 29771; G1 INV 96 29770; G1 INV 95 29769;
  G1 INV 94 29768; G1 INV 93 29767; G1 INV 92 29766; G1 INV 91 29765; G1 INV 90 29764; G1 INV 89 29763;
  G1 INV 88 29762; G1 INV 87 29761; G1 INV 86 29760; G1 INV 85 29759; G1 INV 84 29758; G1 INV 83 29757;
  G1 INV 82 29756; G1 INV 81 29755; G1 INV 80 29754; G1 INV 79 29753; G1 INV 78 29752; G1 INV 77 29751;
  G1 INV 76 29750; G1 INV 75 29749; G1 INV 74 29748; G1 INV 73 29747; G1 INV 72 29746; G1 INV 71 29745;
  G1 INV 70 29744; G1 INV 69 29743; G1 INV 68 29742; G1 INV 67 29741; G1 INV 66 29740; G1 INV 65 29739;
  G1 INV 64 29738; G2 XOR 65 29738 29675; G1 INV 29675 16883; G2 AND 16883 127 29550;
  G2 XOR 29550 29486 16947; G2 XOR 4098 16947 17830; G2 XOR 4035 16947 18019; G2 XOR 3972 16947 18208;
  G2 XOR 3909 16947 18397; G2 XOR 3846 16947 18586; G2 XOR 3783 16947 18775; G2 XOR 3720 16947 18964;
  G2 XOR 3657 16947 19153; G2 XOR 3594 16947 19342; G2 XOR 3531 16947 19531; G2 XOR 3468 16947 19720;
  G2 XOR 3405 16947 19909; G2 XOR 3342 16947 20098; G2 XOR 3279 16947 20287; G2 XOR 3216 16947 20476;
  G2 XOR 3153 16947 20665; G2 XOR 3090 16947 20854; G2 XOR 3027 16947 21043; G2 XOR 2964 16947 21232;
  G2 XOR 2901 16947 21421; G2 XOR 2838 16947 21610; G2 XOR 2775 16947 21799; G2 XOR 2712 16947 21988;
  G2 XOR 2649 16947 22177; G2 XOR 2586 16947 22366; G2 XOR 2523 16947 22555; G2 XOR 2460 16947 22744;
  G2 XOR 2397 16947 22933; G2 XOR 2334 16947 23122; G2 XOR 2271 16947 23311; G2 XOR 2208 16947 23500;
  G2 XOR 2145 16947 23689; G2 XOR 2082 16947 23878; G2 XOR 2019 16947 24067; G2 XOR 1956 16947 24256;
  G2 XOR 1893 16947 24445; G2 XOR 1830 16947 24634; G2 XOR 1767 16947 24823; G2 XOR 1704 16947 25012;
  G2 XOR 1641 16947 25201; G2 XOR 1578 16947 25390; G2 XOR 1515 16947 25579; G2 XOR 1452 16947 25768;
  G2 XOR 1389 16947 25957; G2 XOR 1326 16947 26146; G2 XOR 1263 16947 26335; G2 XOR 1200 16947 26524;
  G2 XOR 1137 16947 26713; G2 XOR 1074 16947 26902; G2 XOR 1011 16947 27091; G2 XOR 948 16947 27280;
  G2 XOR 885 16947 27469; G2 XOR 822 16947 27658; G2 XOR 759 16947 27847; G2 XOR 696 16947 28036;
  G2 XOR 633 16947 28225; G2 XOR 570 16947 28414; G2 XOR 507 16947 28603; G2 XOR 444 16947 28792;
  G2 XOR 381 16947 28981; G2 XOR 318 16947 29170; G2 XOR 29739 29738 16379; G2 AND 16379 29738 16378;
  G2 XOR 16378 29738 29613; G2 XOR 66 29613 29676; G1 INV 29676 16884; G2 AND 16884 127 29551;
  G2 XOR 29551 29487 16948; G2 XOR 29740 29613 16377; G2 AND 16377 29613 16376; G2 XOR 16376 29613 29614;
  G2 XOR 67 29614 29677; G1 INV 29677 16885; G2 AND 16885 127 29552; G2 XOR 29552 29488 16949;
  G2 XOR 29741 29614 16375; G2 AND 16375 29614 16374; G2 XOR 16374 29614 29615; G2 XOR 68 29615 29678;
  G1 INV 29678 16886; G2 AND 16886 127 29553; G2 XOR 29553 29489 16950; G2 XOR 29742 29615 16373;
  G2 AND 16373 29615 16372; G2 XOR 16372 29615 29616; G2 XOR 69 29616 29679; G1 INV 29679 16887;
  G2 AND 16887 127 29554; G2 XOR 29554 29490 16951; G2 XOR 29743 29616 16371; G2 AND 16371 29616 16370;
  G2 XOR 16370 29616 29617; G2 XOR 70 29617 29680; G1 INV 29680 16888; G2 AND 16888 127 29555;
  G2 XOR 29555 29491 16952; G2 XOR 29744 29617 16369; G2 AND 16369 29617 16368; G2 XOR 16368 29617 29618;
  G2 XOR 71 29618 29681; G1 INV 29681 16889; G2 AND 16889 127 29556; G2 XOR 29556 29492 16953;
  G2 XOR 29745 29618 16367; G2 AND 16367 29618 16366; G2 XOR 16366 29618 29619; G2 XOR 72 29619 29682;
  G1 INV 29682 16890; G2 AND 16890 127 29557; G2 XOR 29557 29493 16954; G2 XOR 29746 29619 16365;
  G2 AND 16365 29619 16364; G2 XOR 16364 29619 29620; G2 XOR 73 29620 29683; G1 INV 29683 16891;
  G2 AND 16891 127 29558; G2 XOR 29558 29494 16955; G2 XOR 29747 29620 16363; G2 AND 16363 29620 16362;
  G2 XOR 16362 29620 29621; G2 XOR 74 29621 29684; G1 INV 29684 16892; G2 AND 16892 127 29559;
  G2 XOR 29559 29495 16956; G2 XOR 29748 29621 16361; G2 AND 16361 29621 16360; G2 XOR 16360 29621 29622;
  G2 XOR 75 29622 29685; G1 INV 29685 16893; G2 AND 16893 127 29560; G2 XOR 29560 29496 16957;
  G2 XOR 29749 29622 16359; G2 AND 16359 29622 16358; G2 XOR 16358 29622 29623; G2 XOR 76 29623 29686;
  G1 INV 29686 16894; G2 AND 16894 127 29561; G2 XOR 29561 29497 16958; G2 XOR 29750 29623 16357;
  G2 AND 16357 29623 16356; G2 XOR 16356 29623 29624; G2 XOR 77 29624 29687; G1 INV 29687 16895;
  G2 AND 16895 127 29562; G2 XOR 29562 29498 16959; G2 XOR 29751 29624 16355; G2 AND 16355 29624 16354;
  G2 XOR 16354 29624 29625; G2 XOR 78 29625 29688; G1 INV 29688 16896; G2 AND 16896 127 29563;
  G2 XOR 29563 29499 16960; G2 XOR 29752 29625 16353; G2 AND 16353 29625 16352; G2 XOR 16352 29625 29626;
  G2 XOR 79 29626 29689; G1 INV 29689 16897; G2 AND 16897 127 29564; G2 XOR 29564 29500 16961;
  G2 XOR 29753 29626 16351; G2 AND 16351 29626 16350; G2 XOR 16350 29626 29627; G2 XOR 80 29627 29690;
  G1 INV 29690 16898; G2 AND 16898 127 29565; G2 XOR 29565 29501 16962; G2 XOR 29754 29627 16349;
  G2 AND 16349 29627 16348; G2 XOR 16348 29627 29628; G2 XOR 81 29628 29691; G1 INV 29691 16899;
  G2 AND 16899 127 29566; G2 XOR 29566 29502 16963; G2 XOR 29755 29628 16347; G2 AND 16347 29628 16346;
  G2 XOR 16346 29628 29629; G2 XOR 82 29629 29692; G1 INV 29692 16900; G2 AND 16900 127 29567;
  G2 XOR 29567 29503 16964; G2 XOR 29756 29629 16345; G2 AND 16345 29629 16344; G2 XOR 16344 29629 29630;
  G2 XOR 83 29630 29693; G1 INV 29693 16901; G2 AND 16901 127 29568; G2 XOR 29568 29504 16965;
  G2 XOR 29757 29630 16343; G2 AND 16343 29630 16342; G2 XOR 16342 29630 29631; G2 XOR 84 29631 29694;
  G1 INV 29694 16902; G2 AND 16902 127 29569; G2 XOR 29569 29505 16966; G2 XOR 29758 29631 16341;
  G2 AND 16341 29631 16340; G2 XOR 16340 29631 29632; G2 XOR 85 29632 29695; G1 INV 29695 16903;
  G2 AND 16903 127 29570; G2 XOR 29570 29506 16967; G2 XOR 29759 29632 16339; G2 AND 16339 29632 16338;
  G2 XOR 16338 29632 29633; G2 XOR 86 29633 29696; G1 INV 29696 16904; G2 AND 16904 127 29571;
  G2 XOR 29571 29507 16968; G2 XOR 29760 29633 16337; G2 AND 16337 29633 16336; G2 XOR 16336 29633 29634;
  G2 XOR 87 29634 29697; G1 INV 29697 16905; G2 AND 16905 127 29572; G2 XOR 29572 29508 16969;
  G2 XOR 29761 29634 16335; G2 AND 16335 29634 16334; G2 XOR 16334 29634 29635; G2 XOR 88 29635 29698;
  G1 INV 29698 16906; G2 AND 16906 127 29573; G2 XOR 29573 29509 16970; G2 XOR 29762 29635 16333;
  G2 AND 16333 29635 16332; G2 XOR 16332 29635 29636; G2 XOR 89 29636 29699; G1 INV 29699 16907;
  G2 AND 16907 127 29574; G2 XOR 29574 29510 16971; G2 XOR 29763 29636 16331; G2 AND 16331 29636 16330;
  G2 XOR 16330 29636 29637; G2 XOR 90 29637 29700; G1 INV 29700 16908; G2 AND 16908 127 29575;
  G2 XOR 29575 29511 16972; G2 XOR 29764 29637 16329; G2 AND 16329 29637 16328; G2 XOR 16328 29637 29638;
  G2 XOR 91 29638 29701; G1 INV 29701 16909; G2 AND 16909 127 29576; G2 XOR 29576 29512 16973;
  G2 XOR 29765 29638 16327; G2 AND 16327 29638 16326; G2 XOR 16326 29638 29639; G2 XOR 92 29639 29702;
  G1 INV 29702 16910; G2 AND 16910 127 29577; G2 XOR 29577 29513 16974; G2 XOR 29766 29639 16325;
  G2 AND 16325 29639 16324; G2 XOR 16324 29639 29640; G2 XOR 93 29640 29703; G1 INV 29703 16911;
  G2 AND 16911 127 29578; G2 XOR 29578 29514 16975; G2 XOR 29767 29640 16323; G2 AND 16323 29640 16322;
  G2 XOR 16322 29640 29641; G2 XOR 94 29641 29704; G1 INV 29704 16912; G2 AND 16912 127 29579;
  G2 XOR 29579 29515 16976; G2 XOR 29768 29641 16321; G2 AND 16321 29641 16320; G2 XOR 16320 29641 29642;
  G2 XOR 95 29642 29705; G1 INV 29705 16913; G2 AND 16913 127 29580; G2 XOR 29580 29516 16977;
  G2 XOR 29769 29642 16319; G2 AND 16319 29642 16318; G2 XOR 16318 29642 29643; G2 XOR 96 29643 29706;
  G1 INV 29706 16914; G2 AND 16914 127 29581; G2 XOR 29581 29517 16978; G2 XOR 29770 29643 16317;
  G2 AND 16317 29643 16316; G2 XOR 16316 29643 29644; G2 XOR 97 29644 29707; G1 INV 29707 16915;
  G2 AND 16915 127 29582; G2 XOR 29582 29518 16979; G2 XOR 29771 29644 16315; G2 AND 16315 29644 16314;
  G2 XOR 16314 29644 29645; G2 XOR 98 29645 29708; G1 INV 29708 16916; G2 AND 16916 127 29583;
  G2 XOR 29583 29519 16980; G2 XOR 29772 29645 16313; G2 AND 16313 29645 16312; G2 XOR 16312 29645 29646;
  G2 XOR 99 29646 29709; G1 INV 29709 16917; G2 AND 16917 127 29584; G2 XOR 29584 29520 16981;
  G2 XOR 29773 29646 16311; G2 AND 16311 29646 16310; G2 XOR 16310 29646 29647; G2 XOR 100 29647 29710;
  G1 INV 29710 16918; G2 AND 16918 127 29585; G2 XOR 29585 29521 16982; G2 XOR 29774 29647 16309;
  G2 AND 16309 29647 16308; G2 XOR 16308 29647 29648; G2 XOR 101 29648 29711; G1 INV 29711 16919;
  G2 AND 16919 127 29586; G2 XOR 29586 29522 16983; G2 XOR 29775 29648 16307; G2 AND 16307 29648 16306;
  G2 XOR 16306 29648 29649; G2 XOR 102 29649 29712; G1 INV 29712 16920; G2 AND 16920 127 29587;
  G2 XOR 29587 29523 16984; G2 XOR 29776 29649 16305; G2 AND 16305 29649 16304; G2 XOR 16304 29649 29650;
  G2 XOR 103 29650 29713; G1 INV 29713 16921; G2 AND 16921 127 29588; G2 XOR 29588 29524 16985;
  G2 XOR 29777 29650 16303; G2 AND 16303 29650 16302; G2 XOR 16302 29650 29651; G2 XOR 104 29651 29714;
  G1 INV 29714 16922; G2 AND 16922 127 29589; G2 XOR 29589 29525 16986; G2 XOR 29778 29651 16301;
  G2 AND 16301 29651 16300; G2 XOR 16300 29651 29652; G2 XOR 105 29652 29715; G1 INV 29715 16923;
  G2 AND 16923 127 29590; G2 XOR 29590 29526 16987; G2 XOR 29779 29652 16299; G2 AND 16299 29652 16298;
  G2 XOR 16298 29652 29653; G2 XOR 106 29653 29716; G1 INV 29716 16924; G2 AND 16924 127 29591;
  G2 XOR 29591 29527 16988; G2 XOR 29780 29653 16297; G2 AND 16297 29653 16296; G2 XOR 16296 29653 29654;
  G2 XOR 107 29654 29717; G1 INV 29717 16925; G2 AND 16925 127 29592; G2 XOR 29592 29528 16989;
  G2 XOR 29781 29654 16295; G2 AND 16295 29654 16294; G2 XOR 16294 29654 29655; G2 XOR 108 29655 29718;
  G1 INV 29718 16926; G2 AND 16926 127 29593; G2 XOR 29593 29529 16990; G2 XOR 29782 29655 16293;
  G2 AND 16293 29655 16292; G2 XOR 16292 29655 29656; G2 XOR 109 29656 29719; G1 INV 29719 16927;
  G2 AND 16927 127 29594; G2 XOR 29594 29530 16991; G2 XOR 29783 29656 16291; G2 AND 16291 29656 16290;
  G2 XOR 16290 29656 29657; G2 XOR 110 29657 29720; G1 INV 29720 16928; G2 AND 16928 127 29595;
  G2 XOR 29595 29531 16992; G2 XOR 29784 29657 16289; G2 AND 16289 29657 16288; G2 XOR 16288 29657 29658;
  G2 XOR 111 29658 29721; G1 INV 29721 16929; G2 AND 16929 127 29596; G2 XOR 29596 29532 16993;
  G2 XOR 29785 29658 16287; G2 AND 16287 29658 16286; G2 XOR 16286 29658 29659; G2 XOR 112 29659 29722;
  G1 INV 29722 16930; G2 AND 16930 127 29597; G2 XOR 29597 29533 16994; G2 XOR 29786 29659 16285;
  G2 AND 16285 29659 16284; G2 XOR 16284 29659 29660; G2 XOR 113 29660 29723; G1 INV 29723 16931;
  G2 AND 16931 127 29598; G2 XOR 29598 29534 16995; G2 XOR 29787 29660 16283; G2 AND 16283 29660 16282;
  G2 XOR 16282 29660 29661; G2 XOR 114 29661 29724; G1 INV 29724 16932; G2 AND 16932 127 29599;
  G2 XOR 29599 29535 16996; G2 XOR 29788 29661 16281; G2 AND 16281 29661 16280; G2 XOR 16280 29661 29662;
  G2 XOR 115 29662 29725; G1 INV 29725 16933; G2 AND 16933 127 29600; G2 XOR 29600 29536 16997;
  G2 XOR 29789 29662 16279; G2 AND 16279 29662 16278; G2 XOR 16278 29662 29663; G2 XOR 116 29663 29726;
  G1 INV 29726 16934; G2 AND 16934 127 29601; G2 XOR 29601 29537 16998; G2 XOR 29790 29663 16277;
  G2 AND 16277 29663 16276; G2 XOR 16276 29663 29664; G2 XOR 117 29664 29727; G1 INV 29727 16935;
  G2 AND 16935 127 29602; G2 XOR 29602 29538 16999; G2 XOR 29791 29664 16275; G2 AND 16275 29664 16274;
  G2 XOR 16274 29664 29665; G2 XOR 118 29665 29728; G1 INV 29728 16936; G2 AND 16936 127 29603;
  G2 XOR 29603 29539 17000; G2 XOR 29792 29665 16273; G2 AND 16273 29665 16272; G2 XOR 16272 29665 29666;
  G2 XOR 119 29666 29729; G1 INV 29729 16937; G2 AND 16937 127 29604; G2 XOR 29604 29540 17001;
  G2 XOR 29793 29666 16271; G2 AND 16271 29666 16270; G2 XOR 16270 29666 29667; G2 XOR 120 29667 29730;
  G1 INV 29730 16938; G2 AND 16938 127 29605; G2 XOR 29605 29541 17002; G2 XOR 29794 29667 16269;
  G2 AND 16269 29667 16268; G2 XOR 16268 29667 29668; G2 XOR 121 29668 29731; G1 INV 29731 16939;
  G2 AND 16939 127 29606; G2 XOR 29606 29542 17003; G2 XOR 29795 29668 16267; G2 AND 16267 29668 16266;
  G2 XOR 16266 29668 29669; G2 XOR 122 29669 29732; G1 INV 29732 16940; G2 AND 16940 127 29607;
  G2 XOR 29607 29543 17004; G2 XOR 29796 29669 16265; G2 AND 16265 29669 16264; G2 XOR 16264 29669 29670;
  G2 XOR 123 29670 29733; G1 INV 29733 16941; G2 AND 16941 127 29608; G2 XOR 29608 29544 17005;
  G2 XOR 29797 29670 16263; G2 AND 16263 29670 16262; G2 XOR 16262 29670 29671; G2 XOR 124 29671 29734;
  G1 INV 29734 16942; G2 AND 16942 127 29609; G2 XOR 29609 29545 17006; G2 XOR 29798 29671 16261;
  G2 AND 16261 29671 16260; G2 XOR 16260 29671 29672; G2 XOR 125 29672 29735; G1 INV 29735 16943;
  G2 AND 16943 127 29610; G2 XOR 29610 29546 17007; G2 XOR 29799 29672 16259; G2 AND 16259 29672 16258;
  G2 XOR 16258 29672 29673; G2 XOR 126 29673 29736; G1 INV 29736 16944; G2 AND 16944 127 29611;
  G2 XOR 29611 29547 17008; G2 XOR 29800 29673 16257; G2 AND 16257 29673 16256; G2 XOR 16256 29673 29674;
  G2 XOR 127 29674 29737; G1 INV 29737 16945; G2 AND 16945 127 29612; G2 XOR 29612 29548 17009;
  G2 XOR 16882 16946 255; G2 XOR 255 16947 29359; G2 XOR 63 127 128; G1 INV 128 4535; G1 INV 16946 16755;
  G2 XOR 16946 16947 29864; G2 AND 16755 29864 4410; G2 XOR 4410 16946 17326; G2 XOR 16948 17326 4409;
  G1 INV 17326 16754; G2 AND 16754 4409 4408; G2 XOR 4408 17326 17327; G2 XOR 16949 17327 4407;
  G1 INV 17327 16753; G2 AND 16753 4407 4406; G2 XOR 4406 17327 17328; G2 XOR 16950 17328 4405;
  G1 INV 17328 16752; G2 AND 16752 4405 4404; G2 XOR 4404 17328 17329; G2 XOR 16951 17329 4403;
  G1 INV 17329 16751; G2 AND 16751 4403 4402; G2 XOR 4402 17329 17330; G2 XOR 16952 17330 4401;
  G1 INV 17330 16750; G2 AND 16750 4401 4400; G2 XOR 4400 17330 17331; G2 XOR 16953 17331 4399;
  G1 INV 17331 16749; G2 AND 16749 4399 4398; G2 XOR 4398 17331 17332; G2 XOR 16954 17332 4397;
  G1 INV 17332 16748; G2 AND 16748 4397 4396; G2 XOR 4396 17332 17333; G2 XOR 16955 17333 4395;
  G1 INV 17333 16747; G2 AND 16747 4395 4394; G2 XOR 4394 17333 17334; G2 XOR 16956 17334 4393;
  G1 INV 17334 16746; G2 AND 16746 4393 4392; G2 XOR 4392 17334 17335; G2 XOR 16957 17335 4391;
  G1 INV 17335 16745; G2 AND 16745 4391 4390; G2 XOR 4390 17335 17336; G2 XOR 16958 17336 4389;
  G1 INV 17336 16744; G2 AND 16744 4389 4388; G2 XOR 4388 17336 17337; G2 XOR 16959 17337 4387;
  G1 INV 17337 16743; G2 AND 16743 4387 4386; G2 XOR 4386 17337 17338; G2 XOR 16960 17338 4385;
  G1 INV 17338 16742; G2 AND 16742 4385 4384; G2 XOR 4384 17338 17339; G2 XOR 16961 17339 4383;
  G1 INV 17339 16741; G2 AND 16741 4383 4382; G2 XOR 4382 17339 17340; G2 XOR 16962 17340 4381;
  G1 INV 17340 16740; G2 AND 16740 4381 4380; G2 XOR 4380 17340 17341; G2 XOR 16963 17341 4379;
  G1 INV 17341 16739; G2 AND 16739 4379 4378; G2 XOR 4378 17341 17342; G2 XOR 16964 17342 4377;
  G1 INV 17342 16738; G2 AND 16738 4377 4376; G2 XOR 4376 17342 17343; G2 XOR 16965 17343 4375;
  G1 INV 17343 16737; G2 AND 16737 4375 4374; G2 XOR 4374 17343 17344; G2 XOR 16966 17344 4373;
  G1 INV 17344 16736; G2 AND 16736 4373 4372; G2 XOR 4372 17344 17345; G2 XOR 16967 17345 4371;
  G1 INV 17345 16735; G2 AND 16735 4371 4370; G2 XOR 4370 17345 17346; G2 XOR 16968 17346 4369;
  G1 INV 17346 16734; G2 AND 16734 4369 4368; G2 XOR 4368 17346 17347; G2 XOR 16969 17347 4367;
  G1 INV 17347 16733; G2 AND 16733 4367 4366; G2 XOR 4366 17347 17348; G2 XOR 16970 17348 4365;
  G1 INV 17348 16732; G2 AND 16732 4365 4364; G2 XOR 4364 17348 17349; G2 XOR 16971 17349 4363;
  G1 INV 17349 16731; G2 AND 16731 4363 4362; G2 XOR 4362 17349 17350; G2 XOR 16972 17350 4361;
  G1 INV 17350 16730; G2 AND 16730 4361 4360; G2 XOR 4360 17350 17351; G2 XOR 16973 17351 4359;
  G1 INV 17351 16729; G2 AND 16729 4359 4358; G2 XOR 4358 17351 17352; G2 XOR 16974 17352 4357;
  G1 INV 17352 16728; G2 AND 16728 4357 4356; G2 XOR 4356 17352 17353; G2 XOR 16975 17353 4355;
  G1 INV 17353 16727; G2 AND 16727 4355 4354; G2 XOR 4354 17353 17354; G2 XOR 16976 17354 4353;
  G1 INV 17354 16726; G2 AND 16726 4353 4352; G2 XOR 4352 17354 17355; G2 XOR 16977 17355 4351;
  G1 INV 17355 16725; G2 AND 16725 4351 4350; G2 XOR 4350 17355 17356; G2 XOR 16978 17356 4349;
  G1 INV 17356 16724; G2 AND 16724 4349 4348; G2 XOR 4348 17356 17357; G2 XOR 16979 17357 4347;
  G1 INV 17357 16723; G2 AND 16723 4347 4346; G2 XOR 4346 17357 17358; G1 INV 17358 16722;
  G2 XOR 16980 17358 4345; G2 AND 16722 4345 4344; G2 XOR 4344 17358 17359; G1 INV 17359 16721;
  G2 XOR 16981 17359 4343; G2 AND 16721 4343 4342; G2 XOR 4342 17359 17360; G1 INV 17360 16720;
  G2 XOR 16982 17360 4341; G2 AND 16720 4341 4340; G2 XOR 4340 17360 17361; G1 INV 17361 16719;
  G2 XOR 16983 17361 4339; G2 AND 16719 4339 4338; G2 XOR 4338 17361 17362; G1 INV 17362 16718;
  G2 XOR 16984 17362 4337; G2 AND 16718 4337 4336; G2 XOR 4336 17362 17363; G1 INV 17363 16717;
  G2 XOR 16985 17363 4335; G2 AND 16717 4335 4334; G2 XOR 4334 17363 17364; G1 INV 17364 16716;
  G2 XOR 16986 17364 4333; G2 AND 16716 4333 4332; G2 XOR 4332 17364 17365; G1 INV 17365 16715;
  G2 XOR 16987 17365 4331; G2 AND 16715 4331 4330; G2 XOR 4330 17365 17366; G1 INV 17366 16714;
  G2 XOR 16988 17366 4329; G2 AND 16714 4329 4328; G2 XOR 4328 17366 17367; G1 INV 17367 16713;
  G2 XOR 16989 17367 4327; G2 AND 16713 4327 4326; G2 XOR 4326 17367 17368; G1 INV 17368 16712;
  G2 XOR 16990 17368 4325; G2 AND 16712 4325 4324; G2 XOR 4324 17368 17369; G1 INV 17369 16711;
  G2 XOR 16991 17369 4323; G2 AND 16711 4323 4322; G2 XOR 4322 17369 17370; G1 INV 17370 16710;
  G2 XOR 16992 17370 4321; G2 AND 16710 4321 4320; G2 XOR 4320 17370 17371; G1 INV 17371 16709;
  G2 XOR 16993 17371 4319; G2 AND 16709 4319 4318; G2 XOR 4318 17371 17372; G2 XOR 16994 17372 4317;
  G1 INV 17372 16708; G2 AND 16708 4317 4316; G2 XOR 4316 17372 17373; G1 INV 17373 16707;
  G2 XOR 16995 17373 4315; G2 AND 16707 4315 4314; G2 XOR 4314 17373 17374; G2 XOR 16996 17374 4313;
  G1 INV 17374 16706; G2 AND 16706 4313 4312; G2 XOR 4312 17374 17375; G1 INV 17375 16705;
  G2 XOR 16997 17375 4311; G2 AND 16705 4311 4310; G2 XOR 4310 17375 17376; G2 XOR 16998 17376 4309;
  G1 INV 17376 16704; G2 AND 16704 4309 4308; G2 XOR 4308 17376 17377; G2 XOR 16999 17377 4307;
  G1 INV 17377 16703; G2 AND 16703 4307 4306; G2 XOR 4306 17377 17378; G2 XOR 17000 17378 4305;
  G1 INV 17378 16702; G2 AND 16702 4305 4304; G2 XOR 4304 17378 17379; G2 XOR 17001 17379 4303;
  G1 INV 17379 16701; G2 AND 16701 4303 4302; G2 XOR 4302 17379 17380; G2 XOR 17002 17380 4301;
  G1 INV 17380 16700; G2 AND 16700 4301 4300; G2 XOR 4300 17380 17381; G2 XOR 17003 17381 4299;
  G1 INV 17381 16699; G2 AND 16699 4299 4298; G2 XOR 4298 17381 17382; G2 XOR 17004 17382 4297;
  G1 INV 17382 16698; G2 AND 16698 4297 4296; G2 XOR 4296 17382 17383; G2 XOR 17005 17383 4295;
  G1 INV 17383 16697; G2 AND 16697 4295 4294; G2 XOR 4294 17383 17384; G2 XOR 17006 17384 4293;
  G1 INV 17384 16696; G2 AND 16696 4293 4292; G2 XOR 4292 17384 17385; G1 INV 17385 16695;
  G2 XOR 17007 17385 4291; G2 AND 16695 4291 4290; G2 XOR 4290 17385 17386; G2 XOR 17008 17386 4289;
  G1 INV 17386 16694; G2 AND 16694 4289 4288; G2 XOR 4288 17386 17387; G2 XOR 17009 17387 129;
  G2 XOR 29864 16948 29865; G2 XOR 4409 16949 29866; G2 XOR 4407 16950 29867; G2 XOR 4405 16951 29868;
  G2 XOR 4403 16952 29869; G2 XOR 4401 16953 29870; G2 XOR 4399 16954 29871; G2 XOR 4397 16955 29872;
  G2 XOR 4395 16956 29873; G2 XOR 4393 16957 29874; G2 XOR 4391 16958 29875; G2 XOR 4389 16959 29876;
  G2 XOR 4387 16960 29877; G2 XOR 4385 16961 29878; G2 XOR 4383 16962 29879; G2 XOR 4381 16963 29880;
  G2 XOR 4379 16964 29881; G2 XOR 4377 16965 29882; G2 XOR 4375 16966 29883; G2 XOR 4373 16967 29884;
  G2 XOR 4371 16968 29885; G2 XOR 4369 16969 29886; G2 XOR 4367 16970 29887; G2 XOR 4365 16971 29888;
  G2 XOR 4363 16972 29889; G2 XOR 4361 16973 29890; G2 XOR 4359 16974 29891; G2 XOR 4357 16975 29892;
  G2 XOR 4355 16976 29893; G2 XOR 4353 16977 29894; G2 XOR 4351 16978 29895; G2 XOR 4349 16979 29896;
  G2 XOR 4347 16980 29897; G2 XOR 4345 16981 29898; G2 XOR 4343 16982 29899; G2 XOR 4341 16983 29900;
  G2 XOR 4339 16984 29901; G2 XOR 4337 16985 29902; G2 XOR 4335 16986 29903; G2 XOR 4333 16987 29904;
  G2 XOR 4331 16988 29905; G2 XOR 4329 16989 29906; G2 XOR 4327 16990 29907; G2 XOR 4325 16991 29908;
  G2 XOR 4323 16992 29909; G2 XOR 4321 16993 29910; G2 XOR 4319 16994 29911; G2 XOR 4317 16995 29912;
  G2 XOR 4315 16996 29913; G2 XOR 4313 16997 29914; G2 XOR 4311 16998 29915; G2 XOR 4309 16999 29916;
  G2 XOR 4307 17000 29917; G2 XOR 4305 17001 29918; G2 XOR 4303 17002 29919; G2 XOR 4301 17003 29920;
  G2 XOR 4299 17004 29921; G2 XOR 4297 17005 29922; G2 XOR 4295 17006 29923; G2 XOR 4293 17007 29924;
  G2 XOR 4291 17008 29925; G2 XOR 4289 17009 29926; G1 INV 129 16693; G2 XOR 16882 16693 29927;
  G2 XOR 16946 16693 29928; G2 XOR 29864 16693 29929; G2 XOR 4409 16693 29930; G2 XOR 4407 16693 29931;
  G2 XOR 4405 16693 29932; G2 XOR 4403 16693 29933; G2 XOR 4401 16693 29934; G2 XOR 4399 16693 29935;
  G2 XOR 4397 16693 29936; G2 XOR 4395 16693 29937; G2 XOR 4393 16693 29938; G2 XOR 4391 16693 29939;
  G2 XOR 4389 16693 29940; G2 XOR 4387 16693 29941; G2 XOR 4385 16693 29942; G2 XOR 4383 16693 29943;
  G2 XOR 4381 16693 29944; G2 XOR 4379 16693 29945; G2 XOR 4377 16693 29946; G2 XOR 4375 16693 29947;
  G2 XOR 4373 16693 29948; G2 XOR 4371 16693 29949; G2 XOR 4369 16693 29950; G2 XOR 4367 16693 29951;
  G2 XOR 4365 16693 29952; G2 XOR 4363 16693 29953; G2 XOR 4361 16693 29954; G2 XOR 4359 16693 29955;
  G2 XOR 4357 16693 29956; G2 XOR 4355 16693 29957; G2 XOR 4353 16693 29958; G2 XOR 4351 16693 29959;
  G2 XOR 4349 16693 29960; G2 XOR 4347 16693 29961; G2 XOR 4345 16693 29962; G2 XOR 4343 16693 29963;
  G2 XOR 4341 16693 29964; G2 XOR 4339 16693 29965; G2 XOR 4337 16693 29966; G2 XOR 4335 16693 29967;
  G2 XOR 4333 16693 29968; G2 XOR 4331 16693 29969; G2 XOR 4329 16693 29970; G2 XOR 4327 16693 29971;
  G2 XOR 4325 16693 29972; G2 XOR 4323 16693 29973; G2 XOR 4321 16693 29974; G2 XOR 4319 16693 29975;
  G2 XOR 4317 16693 29976; G2 XOR 4315 16693 29977; G2 XOR 4313 16693 29978; G2 XOR 4311 16693 29979;
  G2 XOR 4309 16693 29980; G2 XOR 4307 16693 29981; G2 XOR 4305 16693 29982; G2 XOR 4303 16693 29983;
  G2 XOR 4301 16693 29984; G2 XOR 4299 16693 29985; G2 XOR 4297 16693 29986; G2 XOR 4295 16693 29987;
  G2 XOR 4293 16693 29988; G2 XOR 4291 16693 29989; G2 AND 29927 16946 29801; G2 XOR 29864 29801 254;
  G2 XOR 254 16948 29360; G2 XOR 29928 29801 16565; G2 XOR 16947 29801 16564; G2 AND 16565 16564 16563;
  G2 XOR 16563 29801 29802; G2 XOR 29865 29802 253; G2 XOR 253 16949 29361; G2 XOR 29929 29802 16562;
  G2 XOR 16948 29802 16561; G2 AND 16562 16561 16560; G2 XOR 16560 29802 29803; G2 XOR 29866 29803 252;
  G2 XOR 252 16950 29362; G2 XOR 29930 29803 16559; G2 XOR 16949 29803 16558; G2 AND 16559 16558 16557;
  G2 XOR 16557 29803 29804; G2 XOR 29867 29804 251; G2 XOR 251 16951 29363; G2 XOR 29931 29804 16556;
  G2 XOR 16950 29804 16555; G2 AND 16556 16555 16554; G2 XOR 16554 29804 29805; G2 XOR 29868 29805 250;
  G2 XOR 250 16952 29364; G2 XOR 29932 29805 16553; G2 XOR 16951 29805 16552; G2 AND 16553 16552 16551;
  G2 XOR 16551 29805 29806; G2 XOR 29869 29806 249; G2 XOR 249 16953 29365; G2 XOR 29933 29806 16550;
  G2 XOR 16952 29806 16549; G2 AND 16550 16549 16548; G2 XOR 16548 29806 29807; G2 XOR 29870 29807 248;
  G2 XOR 248 16954 29366; G2 XOR 29934 29807 16547; G2 XOR 16953 29807 16546; G2 AND 16547 16546 16545;
  G2 XOR 16545 29807 29808; G2 XOR 29871 29808 247; G2 XOR 247 16955 29367; G2 XOR 29935 29808 16544;
  G2 XOR 16954 29808 16543; G2 AND 16544 16543 16542; G2 XOR 16542 29808 29809; G2 XOR 29872 29809 246;
  G2 XOR 246 16956 29368; G2 XOR 29936 29809 16541; G2 XOR 16955 29809 16540; G2 AND 16541 16540 16539;
  G2 XOR 16539 29809 29810; G2 XOR 29873 29810 245; G2 XOR 245 16957 29369; G2 XOR 29937 29810 16538;
  G2 XOR 16956 29810 16537; G2 AND 16538 16537 16536; G2 XOR 16536 29810 29811; G2 XOR 29874 29811 244;
  G2 XOR 244 16958 29370; G2 XOR 29938 29811 16535; G2 XOR 16957 29811 16534; G2 AND 16535 16534 16533;
  G2 XOR 16533 29811 29812; G2 XOR 29875 29812 243; G2 XOR 243 16959 29371; G2 XOR 29939 29812 16532;
  G2 XOR 16958 29812 16531; G2 AND 16532 16531 16530; G2 XOR 16530 29812 29813; G2 XOR 29876 29813 242;
  G2 XOR 242 16960 29372; G2 XOR 29940 29813 16529; G2 XOR 16959 29813 16528; G2 AND 16529 16528 16527;
  G2 XOR 16527 29813 29814; G2 XOR 29877 29814 241; G2 XOR 241 16961 29373; G2 XOR 29941 29814 16526;
  G2 XOR 16960 29814 16525; G2 AND 16526 16525 16524; G2 XOR 16524 29814 29815; G2 XOR 29878 29815 240;
  G2 XOR 240 16962 29374; G2 XOR 29942 29815 16523; G2 XOR 16961 29815 16522; G2 AND 16523 16522 16521;
  G2 XOR 16521 29815 29816; G2 XOR 29879 29816 239; G2 XOR 239 16963 29375; G2 XOR 29943 29816 16520;
  G2 XOR 16962 29816 16519; G2 AND 16520 16519 16518; G2 XOR 16518 29816 29817; G2 XOR 29880 29817 238;
  G2 XOR 238 16964 29376; G2 XOR 29944 29817 16517; G2 XOR 16963 29817 16516; G2 AND 16517 16516 16515;
  G2 XOR 16515 29817 29818; G2 XOR 29881 29818 237; G2 XOR 237 16965 29377; G2 XOR 29945 29818 16514;
  G2 XOR 16964 29818 16513; G2 AND 16514 16513 16512; G2 XOR 16512 29818 29819; G2 XOR 29882 29819 236;
  G2 XOR 236 16966 29378; G2 XOR 29946 29819 16511; G2 XOR 16965 29819 16510; G2 AND 16511 16510 16509;
  G2 XOR 16509 29819 29820; G2 XOR 29883 29820 235; G2 XOR 235 16967 29379; G2 XOR 29947 29820 16508;
  G2 XOR 16966 29820 16507; G2 AND 16508 16507 16506; G2 XOR 16506 29820 29821; G2 XOR 29884 29821 234;
  G2 XOR 234 16968 29380; G2 XOR 29948 29821 16505; G2 XOR 16967 29821 16504; G2 AND 16505 16504 16503;
  G2 XOR 16503 29821 29822; G2 XOR 29885 29822 233; G2 XOR 233 16969 29381; G2 XOR 29949 29822 16502;
  G2 XOR 16968 29822 16501; G2 AND 16502 16501 16500; G2 XOR 16500 29822 29823; G2 XOR 29886 29823 232;
  G2 XOR 232 16970 29382; G2 XOR 29950 29823 16499; G2 XOR 16969 29823 16498; G2 AND 16499 16498 16497;
  G2 XOR 16497 29823 29824; G2 XOR 29887 29824 231; G2 XOR 231 16971 29383; G2 XOR 29951 29824 16496;
  G2 XOR 16970 29824 16495; G2 AND 16496 16495 16494; G2 XOR 16494 29824 29825; G2 XOR 29888 29825 230;
  G2 XOR 230 16972 29384; G2 XOR 29952 29825 16493; G2 XOR 16971 29825 16492; G2 AND 16493 16492 16491;
  G2 XOR 16491 29825 29826; G2 XOR 29889 29826 229; G2 XOR 229 16973 29385; G2 XOR 29953 29826 16490;
  G2 XOR 16972 29826 16489; G2 AND 16490 16489 16488; G2 XOR 16488 29826 29827; G2 XOR 29890 29827 228;
  G2 XOR 228 16974 29386; G2 XOR 29954 29827 16487; G2 XOR 16973 29827 16486; G2 AND 16487 16486 16485;
  G2 XOR 16485 29827 29828; G2 XOR 29891 29828 227; G2 XOR 227 16975 29387; G2 XOR 29955 29828 16484;
  G2 XOR 16974 29828 16483; G2 AND 16484 16483 16482; G2 XOR 16482 29828 29829; G2 XOR 29892 29829 226;
  G2 XOR 226 16976 29388; G2 XOR 29956 29829 16481; G2 XOR 16975 29829 16480; G2 AND 16481 16480 16479;
  G2 XOR 16479 29829 29830; G2 XOR 29893 29830 225; G2 XOR 225 16977 29389; G2 XOR 29957 29830 16478;
  G2 XOR 16976 29830 16477; G2 AND 16478 16477 16476; G2 XOR 16476 29830 29831; G2 XOR 29894 29831 224;
  G2 XOR 224 16978 29390; G2 XOR 29958 29831 16475; G2 XOR 16977 29831 16474; G2 AND 16475 16474 16473;
  G2 XOR 16473 29831 29832; G2 XOR 29895 29832 223; G2 XOR 223 16979 29391; G2 XOR 29959 29832 16472;
  G2 XOR 16978 29832 16471; G2 AND 16472 16471 16470; G2 XOR 16470 29832 29833; G2 XOR 29896 29833 222;
  G2 XOR 222 16980 29392; G2 XOR 29960 29833 16469; G2 XOR 16979 29833 16468; G2 AND 16469 16468 16467;
  G2 XOR 16467 29833 29834; G2 XOR 29897 29834 221; G2 XOR 221 16981 29393; G2 XOR 29961 29834 16466;
  G2 XOR 16980 29834 16465; G2 AND 16466 16465 16464; G2 XOR 16464 29834 29835; G2 XOR 29898 29835 220;
  G2 XOR 220 16982 29394; G2 XOR 29962 29835 16463; G2 XOR 16981 29835 16462; G2 AND 16463 16462 16461;
  G2 XOR 16461 29835 29836; G2 XOR 29899 29836 219; G2 XOR 219 16983 29395; G2 XOR 29963 29836 16460;
  G2 XOR 16982 29836 16459; G2 AND 16460 16459 16458; G2 XOR 16458 29836 29837; G2 XOR 29900 29837 218;
  G2 XOR 218 16984 29396; G2 XOR 29964 29837 16457; G2 XOR 16983 29837 16456; G2 AND 16457 16456 16455;
  G2 XOR 16455 29837 29838; G2 XOR 29901 29838 217; G2 XOR 217 16985 29397; G2 XOR 29965 29838 16454;
  G2 XOR 16984 29838 16453; G2 AND 16454 16453 16452; G2 XOR 16452 29838 29839; G2 XOR 29902 29839 216;
  G2 XOR 216 16986 29398; G2 XOR 29966 29839 16451; G2 XOR 16985 29839 16450; G2 AND 16451 16450 16449;
  G2 XOR 16449 29839 29840; G2 XOR 29903 29840 215; G2 XOR 215 16987 29399; G2 XOR 29967 29840 16448;
  G2 XOR 16986 29840 16447; G2 AND 16448 16447 16446; G2 XOR 16446 29840 29841; G2 XOR 29904 29841 214;
  G2 XOR 214 16988 29400; G2 XOR 29968 29841 16445; G2 XOR 16987 29841 16444; G2 AND 16445 16444 16443;
  G2 XOR 16443 29841 29842; G2 XOR 29905 29842 213; G2 XOR 213 16989 29401; G2 XOR 29969 29842 16442;
  G2 XOR 16988 29842 16441; G2 AND 16442 16441 16440; G2 XOR 16440 29842 29843; G2 XOR 29906 29843 212;
  G2 XOR 212 16990 29402; G2 XOR 29970 29843 16439; G2 XOR 16989 29843 16438; G2 AND 16439 16438 16437;
  G2 XOR 16437 29843 29844; G2 XOR 29907 29844 211; G2 XOR 211 16991 29403; G2 XOR 29971 29844 16436;
  G2 XOR 16990 29844 16435; G2 AND 16436 16435 16434; G2 XOR 16434 29844 29845; G2 XOR 29908 29845 210;
  G2 XOR 210 16992 29404; G2 XOR 29972 29845 16433; G2 XOR 16991 29845 16432; G2 AND 16433 16432 16431;
  G2 XOR 16431 29845 29846; G2 XOR 29909 29846 209; G2 XOR 209 16993 29405; G2 XOR 29973 29846 16430;
  G2 XOR 16992 29846 16429; G2 AND 16430 16429 16428; G2 XOR 16428 29846 29847; G2 XOR 29910 29847 208;
  G2 XOR 208 16994 29406; G2 XOR 29974 29847 16427; G2 XOR 16993 29847 16426; G2 AND 16427 16426 16425;
  G2 XOR 16425 29847 29848; G2 XOR 29911 29848 207; G2 XOR 207 16995 29407; G2 XOR 29975 29848 16424;
  G2 XOR 16994 29848 16423; G2 AND 16424 16423 16422; G2 XOR 16422 29848 29849; G2 XOR 29912 29849 206;
  G2 XOR 206 16996 29408; G2 XOR 29976 29849 16421; G2 XOR 16995 29849 16420; G2 AND 16421 16420 16419;
  G2 XOR 16419 29849 29850; G2 XOR 29913 29850 205; G2 XOR 205 16997 29409; G2 XOR 29977 29850 16418;
  G2 XOR 16996 29850 16417; G2 AND 16418 16417 16416; G2 XOR 16416 29850 29851; G2 XOR 29914 29851 204;
  G2 XOR 204 16998 29410; G2 XOR 29978 29851 16415; G2 XOR 16997 29851 16414; G2 AND 16415 16414 16413;
  G2 XOR 16413 29851 29852; G2 XOR 29915 29852 203; G2 XOR 203 16999 29411; G2 XOR 29979 29852 16412;
  G2 XOR 16998 29852 16411; G2 AND 16412 16411 16410; G2 XOR 16410 29852 29853; G2 XOR 29916 29853 202;
  G2 XOR 202 17000 29412; G2 XOR 29980 29853 16409; G2 XOR 16999 29853 16408; G2 AND 16409 16408 16407;
  G2 XOR 16407 29853 29854; G2 XOR 29917 29854 201; G2 XOR 201 17001 29413; G2 XOR 29981 29854 16406;
  G2 XOR 17000 29854 16405; G2 AND 16406 16405 16404; G2 XOR 16404 29854 29855; G2 XOR 29918 29855 200;
  G2 XOR 200 17002 29414; G2 XOR 29982 29855 16403; G2 XOR 17001 29855 16402; G2 AND 16403 16402 16401;
  G2 XOR 16401 29855 29856; G2 XOR 29919 29856 199; G2 XOR 199 17003 29415; G2 XOR 29983 29856 16400;
  G2 XOR 17002 29856 16399; G2 AND 16400 16399 16398; G2 XOR 16398 29856 29857; G2 XOR 29920 29857 198;
  G2 XOR 198 17004 29416; G2 XOR 29984 29857 16397; G2 XOR 17003 29857 16396; G2 AND 16397 16396 16395;
  G2 XOR 16395 29857 29858; G2 XOR 29921 29858 197; G2 XOR 197 17005 29417; G2 XOR 29985 29858 16394;
  G2 XOR 17004 29858 16393; G2 AND 16394 16393 16392; G2 XOR 16392 29858 29859; G2 XOR 29922 29859 196;
  G2 XOR 196 17006 29418; G2 XOR 29986 29859 16391; G2 XOR 17005 29859 16390; G2 AND 16391 16390 16389;
  G2 XOR 16389 29859 29860; G2 XOR 29923 29860 195; G2 XOR 195 17007 29419; G2 XOR 29987 29860 16388;
  G2 XOR 17006 29860 16387; G2 AND 16388 16387 16386; G2 XOR 16386 29860 29861; G2 XOR 29924 29861 194;
  G2 XOR 194 17008 29420; G2 XOR 29988 29861 16385; G2 XOR 17007 29861 16384; G2 AND 16385 16384 16383;
  G2 XOR 16383 29861 29862; G2 XOR 29925 29862 193; G2 XOR 193 17009 29421; G2 XOR 29989 29862 16382;
  G2 XOR 17008 29862 16381; G2 AND 16382 16381 16380; G2 XOR 16380 29862 29863; G2 XOR 29926 29863 130;
  G1 INV 130 16692; G2 XOR 16881 16692 29422; G2 XOR 255 16692 29423; G2 XOR 254 16692 29424;
  G2 XOR 253 16692 29425; G2 XOR 252 16692 29426; G2 XOR 251 16692 29427; G2 XOR 250 16692 29428;
  G2 XOR 249 16692 29429; G2 XOR 248 16692 29430; G2 XOR 247 16692 29431; G2 XOR 246 16692 29432;
  G2 XOR 245 16692 29433; G2 XOR 244 16692 29434; G2 XOR 243 16692 29435; G2 XOR 242 16692 29436;
  G2 XOR 241 16692 29437; G2 XOR 240 16692 29438; G2 XOR 239 16692 29439; G2 XOR 238 16692 29440;
  G2 XOR 237 16692 29441; G2 XOR 236 16692 29442; G2 XOR 235 16692 29443; G2 XOR 234 16692 29444;
  G2 XOR 233 16692 29445; G2 XOR 232 16692 29446; G2 XOR 231 16692 29447; G2 XOR 230 16692 29448;
  G2 XOR 229 16692 29449; G2 XOR 228 16692 29450; G2 XOR 227 16692 29451; G2 XOR 226 16692 29452;
  G2 XOR 225 16692 29453; G2 XOR 224 16692 29454; G2 XOR 223 16692 29455; G2 XOR 222 16692 29456;
  G2 XOR 221 16692 29457; G2 XOR 220 16692 29458; G2 XOR 219 16692 29459; G2 XOR 218 16692 29460;
  G2 XOR 217 16692 29461; G2 XOR 216 16692 29462; G2 XOR 215 16692 29463; G2 XOR 214 16692 29464;
  G2 XOR 213 16692 29465; G2 XOR 212 16692 29466; G2 XOR 211 16692 29467; G2 XOR 210 16692 29468;
  G2 XOR 209 16692 29469; G2 XOR 208 16692 29470; G2 XOR 207 16692 29471; G2 XOR 206 16692 29472;
  G2 XOR 205 16692 29473; G2 XOR 204 16692 29474; G2 XOR 203 16692 29475; G2 XOR 202 16692 29476;
  G2 XOR 201 16692 29477; G2 XOR 200 16692 29478; G2 XOR 199 16692 29479; G2 XOR 198 16692 29480;
  G2 XOR 197 16692 29481; G2 XOR 196 16692 29482; G2 XOR 195 16692 29483; G2 XOR 194 16692 29484;
  G2 AND 29422 16946 29296; G2 XOR 29359 29296 317; G2 XOR 317 16948 29171; G2 XOR 29423 29296 16254;
  G2 XOR 16947 29296 16253; G2 AND 16254 16253 16252; G2 XOR 16252 29296 29297; G2 XOR 29360 29297 316;
  G2 XOR 316 16949 29172; G2 XOR 29424 29297 16251; G2 XOR 16948 29297 16250; G2 AND 16251 16250 16249;
  G2 XOR 16249 29297 29298; G2 XOR 29361 29298 315; G2 XOR 315 16950 29173; G2 XOR 29425 29298 16248;
  G2 XOR 16949 29298 16247; G2 AND 16248 16247 16246; G2 XOR 16246 29298 29299; G2 XOR 29362 29299 314;
  G2 XOR 314 16951 29174; G2 XOR 29426 29299 16245; G2 XOR 16950 29299 16244; G2 AND 16245 16244 16243;
  G2 XOR 16243 29299 29300; G2 XOR 29363 29300 313; G2 XOR 313 16952 29175; G2 XOR 29427 29300 16242;
  G2 XOR 16951 29300 16241; G2 AND 16242 16241 16240; G2 XOR 16240 29300 29301; G2 XOR 29364 29301 312;
  G2 XOR 312 16953 29176; G2 XOR 29428 29301 16239; G2 XOR 16952 29301 16238; G2 AND 16239 16238 16237;
  G2 XOR 16237 29301 29302; G2 XOR 29365 29302 311; G2 XOR 311 16954 29177; G2 XOR 29429 29302 16236;
  G2 XOR 16953 29302 16235; G2 AND 16236 16235 16234; G2 XOR 16234 29302 29303; G2 XOR 29366 29303 310;
  G2 XOR 310 16955 29178; G2 XOR 29430 29303 16233; G2 XOR 16954 29303 16232; G2 AND 16233 16232 16231;
  G2 XOR 16231 29303 29304; G2 XOR 29367 29304 309; G2 XOR 309 16956 29179; G2 XOR 29431 29304 16230;
  G2 XOR 16955 29304 16229; G2 AND 16230 16229 16228; G2 XOR 16228 29304 29305; G2 XOR 29368 29305 308;
  G2 XOR 308 16957 29180; G2 XOR 29432 29305 16227; G2 XOR 16956 29305 16226; G2 AND 16227 16226 16225;
  G2 XOR 16225 29305 29306; G2 XOR 29369 29306 307; G2 XOR 307 16958 29181; G2 XOR 29433 29306 16224;
  G2 XOR 16957 29306 16223; G2 AND 16224 16223 16222; G2 XOR 16222 29306 29307; G2 XOR 29370 29307 306;
  G2 XOR 306 16959 29182; G2 XOR 29434 29307 16221; G2 XOR 16958 29307 16220; G2 AND 16221 16220 16219;
  G2 XOR 16219 29307 29308; G2 XOR 29371 29308 305; G2 XOR 305 16960 29183; G2 XOR 29435 29308 16218;
  G2 XOR 16959 29308 16217; G2 AND 16218 16217 16216; G2 XOR 16216 29308 29309; G2 XOR 29372 29309 304;
  G2 XOR 304 16961 29184; G2 XOR 29436 29309 16215; G2 XOR 16960 29309 16214; G2 AND 16215 16214 16213;
  G2 XOR 16213 29309 29310; G2 XOR 29373 29310 303; G2 XOR 303 16962 29185; G2 XOR 29437 29310 16212;
  G2 XOR 16961 29310 16211; G2 AND 16212 16211 16210; G2 XOR 16210 29310 29311; G2 XOR 29374 29311 302;
  G2 XOR 302 16963 29186; G2 XOR 29438 29311 16209; G2 XOR 16962 29311 16208; G2 AND 16209 16208 16207;
  G2 XOR 16207 29311 29312; G2 XOR 29375 29312 301; G2 XOR 301 16964 29187; G2 XOR 29439 29312 16206;
  G2 XOR 16963 29312 16205; G2 AND 16206 16205 16204; G2 XOR 16204 29312 29313; G2 XOR 29376 29313 300;
  G2 XOR 300 16965 29188; G2 XOR 29440 29313 16203; G2 XOR 16964 29313 16202; G2 AND 16203 16202 16201;
  G2 XOR 16201 29313 29314; G2 XOR 29377 29314 299; G2 XOR 299 16966 29189; G2 XOR 29441 29314 16200;
  G2 XOR 16965 29314 16199; G2 AND 16200 16199 16198; G2 XOR 16198 29314 29315; G2 XOR 29378 29315 298;
  G2 XOR 298 16967 29190; G2 XOR 29442 29315 16197; G2 XOR 16966 29315 16196; G2 AND 16197 16196 16195;
  G2 XOR 16195 29315 29316; G2 XOR 29379 29316 297; G2 XOR 297 16968 29191; G2 XOR 29443 29316 16194;
  G2 XOR 16967 29316 16193; G2 AND 16194 16193 16192; G2 XOR 16192 29316 29317; G2 XOR 29380 29317 296;
  G2 XOR 296 16969 29192; G2 XOR 29444 29317 16191; G2 XOR 16968 29317 16190; G2 AND 16191 16190 16189;
  G2 XOR 16189 29317 29318; G2 XOR 29381 29318 295; G2 XOR 295 16970 29193; G2 XOR 29445 29318 16188;
  G2 XOR 16969 29318 16187; G2 AND 16188 16187 16186; G2 XOR 16186 29318 29319; G2 XOR 29382 29319 294;
  G2 XOR 294 16971 29194; G2 XOR 29446 29319 16185; G2 XOR 16970 29319 16184; G2 AND 16185 16184 16183;
  G2 XOR 16183 29319 29320; G2 XOR 29383 29320 293; G2 XOR 293 16972 29195; G2 XOR 29447 29320 16182;
  G2 XOR 16971 29320 16181; G2 AND 16182 16181 16180; G2 XOR 16180 29320 29321; G2 XOR 29384 29321 292;
  G2 XOR 292 16973 29196; G2 XOR 29448 29321 16179; G2 XOR 16972 29321 16178; G2 AND 16179 16178 16177;
  G2 XOR 16177 29321 29322; G2 XOR 29385 29322 291; G2 XOR 291 16974 29197; G2 XOR 29449 29322 16176;
  G2 XOR 16973 29322 16175; G2 AND 16176 16175 16174; G2 XOR 16174 29322 29323; G2 XOR 29386 29323 290;
  G2 XOR 290 16975 29198; G2 XOR 29450 29323 16173; G2 XOR 16974 29323 16172; G2 AND 16173 16172 16171;
  G2 XOR 16171 29323 29324; G2 XOR 29387 29324 289; G2 XOR 289 16976 29199; G2 XOR 29451 29324 16170;
  G2 XOR 16975 29324 16169; G2 AND 16170 16169 16168; G2 XOR 16168 29324 29325; G2 XOR 29388 29325 288;
  G2 XOR 288 16977 29200; G2 XOR 29452 29325 16167; G2 XOR 16976 29325 16166; G2 AND 16167 16166 16165;
  G2 XOR 16165 29325 29326; G2 XOR 29389 29326 287; G2 XOR 287 16978 29201; G2 XOR 29453 29326 16164;
  G2 XOR 16977 29326 16163; G2 AND 16164 16163 16162; G2 XOR 16162 29326 29327; G2 XOR 29390 29327 286;
  G2 XOR 286 16979 29202; G2 XOR 29454 29327 16161; G2 XOR 16978 29327 16160; G2 AND 16161 16160 16159;
  G2 XOR 16159 29327 29328; G2 XOR 29391 29328 285; G2 XOR 285 16980 29203; G2 XOR 29455 29328 16158;
  G2 XOR 16979 29328 16157; G2 AND 16158 16157 16156; G2 XOR 16156 29328 29329; G2 XOR 29392 29329 284;
  G2 XOR 284 16981 29204; G2 XOR 29456 29329 16155; G2 XOR 16980 29329 16154; G2 AND 16155 16154 16153;
  G2 XOR 16153 29329 29330; G2 XOR 29393 29330 283; G2 XOR 283 16982 29205; G2 XOR 29457 29330 16152;
  G2 XOR 16981 29330 16151; G2 AND 16152 16151 16150; G2 XOR 16150 29330 29331; G2 XOR 29394 29331 282;
  G2 XOR 282 16983 29206; G2 XOR 29458 29331 16149; G2 XOR 16982 29331 16148; G2 AND 16149 16148 16147;
  G2 XOR 16147 29331 29332; G2 XOR 29395 29332 281; G2 XOR 281 16984 29207; G2 XOR 29459 29332 16146;
  G2 XOR 16983 29332 16145; G2 AND 16146 16145 16144; G2 XOR 16144 29332 29333; G2 XOR 29396 29333 280;
  G2 XOR 280 16985 29208; G2 XOR 29460 29333 16143; G2 XOR 16984 29333 16142; G2 AND 16143 16142 16141;
  G2 XOR 16141 29333 29334; G2 XOR 29397 29334 279; G2 XOR 279 16986 29209; G2 XOR 29461 29334 16140;
  G2 XOR 16985 29334 16139; G2 AND 16140 16139 16138; G2 XOR 16138 29334 29335; G2 XOR 29398 29335 278;
  G2 XOR 278 16987 29210; G2 XOR 29462 29335 16137; G2 XOR 16986 29335 16136; G2 AND 16137 16136 16135;
  G2 XOR 16135 29335 29336; G2 XOR 29399 29336 277; G2 XOR 277 16988 29211; G2 XOR 29463 29336 16134;
  G2 XOR 16987 29336 16133; G2 AND 16134 16133 16132; G2 XOR 16132 29336 29337; G2 XOR 29400 29337 276;
  G2 XOR 276 16989 29212; G2 XOR 29464 29337 16131; G2 XOR 16988 29337 16130; G2 AND 16131 16130 16129;
  G2 XOR 16129 29337 29338; G2 XOR 29401 29338 275; G2 XOR 275 16990 29213; G2 XOR 29465 29338 16128;
  G2 XOR 16989 29338 16127; G2 AND 16128 16127 16126; G2 XOR 16126 29338 29339; G2 XOR 29402 29339 274;
  G2 XOR 274 16991 29214; G2 XOR 29466 29339 16125; G2 XOR 16990 29339 16124; G2 AND 16125 16124 16123;
  G2 XOR 16123 29339 29340; G2 XOR 29403 29340 273; G2 XOR 273 16992 29215; G2 XOR 29467 29340 16122;
  G2 XOR 16991 29340 16121; G2 AND 16122 16121 16120; G2 XOR 16120 29340 29341; G2 XOR 29404 29341 272;
  G2 XOR 272 16993 29216; G2 XOR 29468 29341 16119; G2 XOR 16992 29341 16118; G2 AND 16119 16118 16117;
  G2 XOR 16117 29341 29342; G2 XOR 29405 29342 271; G2 XOR 271 16994 29217; G2 XOR 29469 29342 16116;
  G2 XOR 16993 29342 16115; G2 AND 16116 16115 16114; G2 XOR 16114 29342 29343; G2 XOR 29406 29343 270;
  G2 XOR 270 16995 29218; G2 XOR 29470 29343 16113; G2 XOR 16994 29343 16112; G2 AND 16113 16112 16111;
  G2 XOR 16111 29343 29344; G2 XOR 29407 29344 269; G2 XOR 269 16996 29219; G2 XOR 29471 29344 16110;
  G2 XOR 16995 29344 16109; G2 AND 16110 16109 16108; G2 XOR 16108 29344 29345; G2 XOR 29408 29345 268;
  G2 XOR 268 16997 29220; G2 XOR 29472 29345 16107; G2 XOR 16996 29345 16106; G2 AND 16107 16106 16105;
  G2 XOR 16105 29345 29346; G2 XOR 29409 29346 267; G2 XOR 267 16998 29221; G2 XOR 29473 29346 16104;
  G2 XOR 16997 29346 16103; G2 AND 16104 16103 16102; G2 XOR 16102 29346 29347; G2 XOR 29410 29347 266;
  G2 XOR 266 16999 29222; G2 XOR 29474 29347 16101; G2 XOR 16998 29347 16100; G2 AND 16101 16100 16099;
  G2 XOR 16099 29347 29348; G2 XOR 29411 29348 265; G2 XOR 265 17000 29223; G2 XOR 29475 29348 16098;
  G2 XOR 16999 29348 16097; G2 AND 16098 16097 16096; G2 XOR 16096 29348 29349; G2 XOR 29412 29349 264;
  G2 XOR 264 17001 29224; G2 XOR 29476 29349 16095; G2 XOR 17000 29349 16094; G2 AND 16095 16094 16093;
  G2 XOR 16093 29349 29350; G2 XOR 29413 29350 263; G2 XOR 263 17002 29225; G2 XOR 29477 29350 16092;
  G2 XOR 17001 29350 16091; G2 AND 16092 16091 16090; G2 XOR 16090 29350 29351; G2 XOR 29414 29351 262;
  G2 XOR 262 17003 29226; G2 XOR 29478 29351 16089; G2 XOR 17002 29351 16088; G2 AND 16089 16088 16087;
  G2 XOR 16087 29351 29352; G2 XOR 29415 29352 261; G2 XOR 261 17004 29227; G2 XOR 29479 29352 16086;
  G2 XOR 17003 29352 16085; G2 AND 16086 16085 16084; G2 XOR 16084 29352 29353; G2 XOR 29416 29353 260;
  G2 XOR 260 17005 29228; G2 XOR 29480 29353 16083; G2 XOR 17004 29353 16082; G2 AND 16083 16082 16081;
  G2 XOR 16081 29353 29354; G2 XOR 29417 29354 259; G2 XOR 259 17006 29229; G2 XOR 29481 29354 16080;
  G2 XOR 17005 29354 16079; G2 AND 16080 16079 16078; G2 XOR 16078 29354 29355; G2 XOR 29418 29355 258;
  G2 XOR 258 17007 29230; G2 XOR 29482 29355 16077; G2 XOR 17006 29355 16076; G2 AND 16077 16076 16075;
  G2 XOR 16075 29355 29356; G2 XOR 29419 29356 257; G2 XOR 257 17008 29231; G2 XOR 29483 29356 16074;
  G2 XOR 17007 29356 16073; G2 AND 16074 16073 16072; G2 XOR 16072 29356 29357; G2 XOR 29420 29357 256;
  G2 XOR 256 17009 29232; G2 XOR 29484 29357 16071; G2 XOR 17008 29357 16070; G2 AND 16071 16070 16069;
  G2 XOR 16069 29357 29358; G2 XOR 29421 29358 131; G2 AND 16692 4535 17576; G1 INV 131 16691;
  G2 XOR 16880 16691 29233; G2 XOR 318 16691 29234; G2 XOR 317 16691 29235; G2 XOR 316 16691 29236;
  G2 XOR 315 16691 29237; G2 XOR 314 16691 29238; G2 XOR 313 16691 29239; G2 XOR 312 16691 29240;
  G2 XOR 311 16691 29241; G2 XOR 310 16691 29242; G2 XOR 309 16691 29243; G2 XOR 308 16691 29244;
  G2 XOR 307 16691 29245; G2 XOR 306 16691 29246; G2 XOR 305 16691 29247; G2 XOR 304 16691 29248;
  G2 XOR 303 16691 29249; G2 XOR 302 16691 29250; G2 XOR 301 16691 29251; G2 XOR 300 16691 29252;
  G2 XOR 299 16691 29253; G2 XOR 298 16691 29254; G2 XOR 297 16691 29255; G2 XOR 296 16691 29256;
  G2 XOR 295 16691 29257; G2 XOR 294 16691 29258; G2 XOR 293 16691 29259; G2 XOR 292 16691 29260;
  G2 XOR 291 16691 29261; G2 XOR 290 16691 29262; G2 XOR 289 16691 29263; G2 XOR 288 16691 29264;
  G2 XOR 287 16691 29265; G2 XOR 286 16691 29266; G2 XOR 285 16691 29267; G2 XOR 284 16691 29268;
  G2 XOR 283 16691 29269; G2 XOR 282 16691 29270; G2 XOR 281 16691 29271; G2 XOR 280 16691 29272;
  G2 XOR 279 16691 29273; G2 XOR 278 16691 29274; G2 XOR 277 16691 29275; G2 XOR 276 16691 29276;
  G2 XOR 275 16691 29277; G2 XOR 274 16691 29278; G2 XOR 273 16691 29279; G2 XOR 272 16691 29280;
  G2 XOR 271 16691 29281; G2 XOR 270 16691 29282; G2 XOR 269 16691 29283; G2 XOR 268 16691 29284;
  G2 XOR 267 16691 29285; G2 XOR 266 16691 29286; G2 XOR 265 16691 29287; G2 XOR 264 16691 29288;
  G2 XOR 263 16691 29289; G2 XOR 262 16691 29290; G2 XOR 261 16691 29291; G2 XOR 260 16691 29292;
  G2 XOR 259 16691 29293; G2 XOR 258 16691 29294; G2 XOR 257 16691 29295; G2 AND 29233 16946 29107;
  G2 XOR 29170 29107 380; G2 XOR 380 16948 28982; G2 XOR 29234 29107 16068; G2 XOR 16947 29107 16067;
  G2 AND 16068 16067 16066; G2 XOR 16066 29107 29108; G2 XOR 29171 29108 379; G2 XOR 379 16949 28983;
  G2 XOR 29235 29108 16065; G2 XOR 16948 29108 16064; G2 AND 16065 16064 16063; G2 XOR 16063 29108 29109;
  G2 XOR 29172 29109 378; G2 XOR 378 16950 28984; G2 XOR 29236 29109 16062; G2 XOR 16949 29109 16061;
  G2 AND 16062 16061 16060; G2 XOR 16060 29109 29110; G2 XOR 29173 29110 377; G2 XOR 377 16951 28985;
  G2 XOR 29237 29110 16059; G2 XOR 16950 29110 16058; G2 AND 16059 16058 16057; G2 XOR 16057 29110 29111;
  G2 XOR 29174 29111 376; G2 XOR 376 16952 28986; G2 XOR 29238 29111 16056; G2 XOR 16951 29111 16055;
  G2 AND 16056 16055 16054; G2 XOR 16054 29111 29112; G2 XOR 29175 29112 375; G2 XOR 375 16953 28987;
  G2 XOR 29239 29112 16053; G2 XOR 16952 29112 16052; G2 AND 16053 16052 16051; G2 XOR 16051 29112 29113;
  G2 XOR 29176 29113 374; G2 XOR 374 16954 28988; G2 XOR 29240 29113 16050; G2 XOR 16953 29113 16049;
  G2 AND 16050 16049 16048; G2 XOR 16048 29113 29114; G2 XOR 29177 29114 373; G2 XOR 373 16955 28989;
  G2 XOR 29241 29114 16047; G2 XOR 16954 29114 16046; G2 AND 16047 16046 16045; G2 XOR 16045 29114 29115;
  G2 XOR 29178 29115 372; G2 XOR 372 16956 28990; G2 XOR 29242 29115 16044; G2 XOR 16955 29115 16043;
  G2 AND 16044 16043 16042; G2 XOR 16042 29115 29116; G2 XOR 29179 29116 371; G2 XOR 371 16957 28991;
  G2 XOR 29243 29116 16041; G2 XOR 16956 29116 16040; G2 AND 16041 16040 16039; G2 XOR 16039 29116 29117;
  G2 XOR 29180 29117 370; G2 XOR 370 16958 28992; G2 XOR 29244 29117 16038; G2 XOR 16957 29117 16037;
  G2 AND 16038 16037 16036; G2 XOR 16036 29117 29118; G2 XOR 29181 29118 369; G2 XOR 369 16959 28993;
  G2 XOR 29245 29118 16035; G2 XOR 16958 29118 16034; G2 AND 16035 16034 16033; G2 XOR 16033 29118 29119;
  G2 XOR 29182 29119 368; G2 XOR 368 16960 28994; G2 XOR 29246 29119 16032; G2 XOR 16959 29119 16031;
  G2 AND 16032 16031 16030; G2 XOR 16030 29119 29120; G2 XOR 29183 29120 367; G2 XOR 367 16961 28995;
  G2 XOR 29247 29120 16029; G2 XOR 16960 29120 16028; G2 AND 16029 16028 16027; G2 XOR 16027 29120 29121;
  G2 XOR 29184 29121 366; G2 XOR 366 16962 28996; G2 XOR 29248 29121 16026; G2 XOR 16961 29121 16025;
  G2 AND 16026 16025 16024; G2 XOR 16024 29121 29122; G2 XOR 29185 29122 365; G2 XOR 365 16963 28997;
  G2 XOR 29249 29122 16023; G2 XOR 16962 29122 16022; G2 AND 16023 16022 16021; G2 XOR 16021 29122 29123;
  G2 XOR 29186 29123 364; G2 XOR 364 16964 28998; G2 XOR 29250 29123 16020; G2 XOR 16963 29123 16019;
  G2 AND 16020 16019 16018; G2 XOR 16018 29123 29124; G2 XOR 29187 29124 363; G2 XOR 363 16965 28999;
  G2 XOR 29251 29124 16017; G2 XOR 16964 29124 16016; G2 AND 16017 16016 16015; G2 XOR 16015 29124 29125;
  G2 XOR 29188 29125 362; G2 XOR 362 16966 29000; G2 XOR 29252 29125 16014; G2 XOR 16965 29125 16013;
  G2 AND 16014 16013 16012; G2 XOR 16012 29125 29126; G2 XOR 29189 29126 361; G2 XOR 361 16967 29001;
  G2 XOR 29253 29126 16011; G2 XOR 16966 29126 16010; G2 AND 16011 16010 16009; G2 XOR 16009 29126 29127;
  G2 XOR 29190 29127 360; G2 XOR 360 16968 29002; G2 XOR 29254 29127 16008; G2 XOR 16967 29127 16007;
  G2 AND 16008 16007 16006; G2 XOR 16006 29127 29128; G2 XOR 29191 29128 359; G2 XOR 359 16969 29003;
  G2 XOR 29255 29128 16005; G2 XOR 16968 29128 16004; G2 AND 16005 16004 16003; G2 XOR 16003 29128 29129;
  G2 XOR 29192 29129 358; G2 XOR 358 16970 29004; G2 XOR 29256 29129 16002; G2 XOR 16969 29129 16001;
  G2 AND 16002 16001 16000; G2 XOR 16000 29129 29130; G2 XOR 29193 29130 357; G2 XOR 357 16971 29005;
  G2 XOR 29257 29130 15999; G2 XOR 16970 29130 15998; G2 AND 15999 15998 15997; G2 XOR 15997 29130 29131;
  G2 XOR 29194 29131 356; G2 XOR 356 16972 29006; G2 XOR 29258 29131 15996; G2 XOR 16971 29131 15995;
  G2 AND 15996 15995 15994; G2 XOR 15994 29131 29132; G2 XOR 29195 29132 355; G2 XOR 355 16973 29007;
  G2 XOR 29259 29132 15993; G2 XOR 16972 29132 15992; G2 AND 15993 15992 15991; G2 XOR 15991 29132 29133;
  G2 XOR 29196 29133 354; G2 XOR 354 16974 29008; G2 XOR 29260 29133 15990; G2 XOR 16973 29133 15989;
  G2 AND 15990 15989 15988; G2 XOR 15988 29133 29134; G2 XOR 29197 29134 353; G2 XOR 353 16975 29009;
  G2 XOR 29261 29134 15987; G2 XOR 16974 29134 15986; G2 AND 15987 15986 15985; G2 XOR 15985 29134 29135;
  G2 XOR 29198 29135 352; G2 XOR 352 16976 29010; G2 XOR 29262 29135 15984; G2 XOR 16975 29135 15983;
  G2 AND 15984 15983 15982; G2 XOR 15982 29135 29136; G2 XOR 29199 29136 351; G2 XOR 351 16977 29011;
  G2 XOR 29263 29136 15981; G2 XOR 16976 29136 15980; G2 AND 15981 15980 15979; G2 XOR 15979 29136 29137;
  G2 XOR 29200 29137 350; G2 XOR 350 16978 29012; G2 XOR 29264 29137 15978; G2 XOR 16977 29137 15977;
  G2 AND 15978 15977 15976; G2 XOR 15976 29137 29138; G2 XOR 29201 29138 349; G2 XOR 349 16979 29013;
  G2 XOR 29265 29138 15975; G2 XOR 16978 29138 15974; G2 AND 15975 15974 15973; G2 XOR 15973 29138 29139;
  G2 XOR 29202 29139 348; G2 XOR 348 16980 29014; G2 XOR 29266 29139 15972; G2 XOR 16979 29139 15971;
  G2 AND 15972 15971 15970; G2 XOR 15970 29139 29140; G2 XOR 29203 29140 347; G2 XOR 347 16981 29015;
  G2 XOR 29267 29140 15969; G2 XOR 16980 29140 15968; G2 AND 15969 15968 15967; G2 XOR 15967 29140 29141;
  G2 XOR 29204 29141 346; G2 XOR 346 16982 29016; G2 XOR 29268 29141 15966; G2 XOR 16981 29141 15965;
  G2 AND 15966 15965 15964; G2 XOR 15964 29141 29142; G2 XOR 29205 29142 345; G2 XOR 345 16983 29017;
  G2 XOR 29269 29142 15963; G2 XOR 16982 29142 15962; G2 AND 15963 15962 15961; G2 XOR 15961 29142 29143;
  G2 XOR 29206 29143 344; G2 XOR 344 16984 29018; G2 XOR 29270 29143 15960; G2 XOR 16983 29143 15959;
  G2 AND 15960 15959 15958; G2 XOR 15958 29143 29144; G2 XOR 29207 29144 343; G2 XOR 343 16985 29019;
  G2 XOR 29271 29144 15957; G2 XOR 16984 29144 15956; G2 AND 15957 15956 15955; G2 XOR 15955 29144 29145;
  G2 XOR 29208 29145 342; G2 XOR 342 16986 29020; G2 XOR 29272 29145 15954; G2 XOR 16985 29145 15953;
  G2 AND 15954 15953 15952; G2 XOR 15952 29145 29146; G2 XOR 29209 29146 341; G2 XOR 341 16987 29021;
  G2 XOR 29273 29146 15951; G2 XOR 16986 29146 15950; G2 AND 15951 15950 15949; G2 XOR 15949 29146 29147;
  G2 XOR 29210 29147 340; G2 XOR 340 16988 29022; G2 XOR 29274 29147 15948; G2 XOR 16987 29147 15947;
  G2 AND 15948 15947 15946; G2 XOR 15946 29147 29148; G2 XOR 29211 29148 339; G2 XOR 339 16989 29023;
  G2 XOR 29275 29148 15945; G2 XOR 16988 29148 15944; G2 AND 15945 15944 15943; G2 XOR 15943 29148 29149;
  G2 XOR 29212 29149 338; G2 XOR 338 16990 29024; G2 XOR 29276 29149 15942; G2 XOR 16989 29149 15941;
  G2 AND 15942 15941 15940; G2 XOR 15940 29149 29150; G2 XOR 29213 29150 337; G2 XOR 337 16991 29025;
  G2 XOR 29277 29150 15939; G2 XOR 16990 29150 15938; G2 AND 15939 15938 15937; G2 XOR 15937 29150 29151;
  G2 XOR 29214 29151 336; G2 XOR 336 16992 29026; G2 XOR 29278 29151 15936; G2 XOR 16991 29151 15935;
  G2 AND 15936 15935 15934; G2 XOR 15934 29151 29152; G2 XOR 29215 29152 335; G2 XOR 335 16993 29027;
  G2 XOR 29279 29152 15933; G2 XOR 16992 29152 15932; G2 AND 15933 15932 15931; G2 XOR 15931 29152 29153;
  G2 XOR 29216 29153 334; G2 XOR 334 16994 29028; G2 XOR 29280 29153 15930; G2 XOR 16993 29153 15929;
  G2 AND 15930 15929 15928; G2 XOR 15928 29153 29154; G2 XOR 29217 29154 333; G2 XOR 333 16995 29029;
  G2 XOR 29281 29154 15927; G2 XOR 16994 29154 15926; G2 AND 15927 15926 15925; G2 XOR 15925 29154 29155;
  G2 XOR 29218 29155 332; G2 XOR 332 16996 29030; G2 XOR 29282 29155 15924; G2 XOR 16995 29155 15923;
  G2 AND 15924 15923 15922; G2 XOR 15922 29155 29156; G2 XOR 29219 29156 331; G2 XOR 331 16997 29031;
  G2 XOR 29283 29156 15921; G2 XOR 16996 29156 15920; G2 AND 15921 15920 15919; G2 XOR 15919 29156 29157;
  G2 XOR 29220 29157 330; G2 XOR 330 16998 29032; G2 XOR 29284 29157 15918; G2 XOR 16997 29157 15917;
  G2 AND 15918 15917 15916; G2 XOR 15916 29157 29158; G2 XOR 29221 29158 329; G2 XOR 329 16999 29033;
  G2 XOR 29285 29158 15915; G2 XOR 16998 29158 15914; G2 AND 15915 15914 15913; G2 XOR 15913 29158 29159;
  G2 XOR 29222 29159 328; G2 XOR 328 17000 29034; G2 XOR 29286 29159 15912; G2 XOR 16999 29159 15911;
  G2 AND 15912 15911 15910; G2 XOR 15910 29159 29160; G2 XOR 29223 29160 327; G2 XOR 327 17001 29035;
  G2 XOR 29287 29160 15909; G2 XOR 17000 29160 15908; G2 AND 15909 15908 15907; G2 XOR 15907 29160 29161;
  G2 XOR 29224 29161 326; G2 XOR 326 17002 29036; G2 XOR 29288 29161 15906; G2 XOR 17001 29161 15905;
  G2 AND 15906 15905 15904; G2 XOR 15904 29161 29162; G2 XOR 29225 29162 325; G2 XOR 325 17003 29037;
  G2 XOR 29289 29162 15903; G2 XOR 17002 29162 15902; G2 AND 15903 15902 15901; G2 XOR 15901 29162 29163;
  G2 XOR 29226 29163 324; G2 XOR 324 17004 29038; G2 XOR 29290 29163 15900; G2 XOR 17003 29163 15899;
  G2 AND 15900 15899 15898; G2 XOR 15898 29163 29164; G2 XOR 29227 29164 323; G2 XOR 323 17005 29039;
  G2 XOR 29291 29164 15897; G2 XOR 17004 29164 15896; G2 AND 15897 15896 15895; G2 XOR 15895 29164 29165;
  G2 XOR 29228 29165 322; G2 XOR 322 17006 29040; G2 XOR 29292 29165 15894; G2 XOR 17005 29165 15893;
  G2 AND 15894 15893 15892; G2 XOR 15892 29165 29166; G2 XOR 29229 29166 321; G2 XOR 321 17007 29041;
  G2 XOR 29293 29166 15891; G2 XOR 17006 29166 15890; G2 AND 15891 15890 15889; G2 XOR 15889 29166 29167;
  G2 XOR 29230 29167 320; G2 XOR 320 17008 29042; G2 XOR 29294 29167 15888; G2 XOR 17007 29167 15887;
  G2 AND 15888 15887 15886; G2 XOR 15886 29167 29168; G2 XOR 29231 29168 319; G2 XOR 319 17009 29043;
  G2 XOR 29295 29168 15885; G2 XOR 17008 29168 15884; G2 AND 15885 15884 15883; G2 XOR 15883 29168 29169;
  G2 XOR 29232 29169 132; G1 INV 132 16690; G2 XOR 16879 16690 29044; G2 XOR 381 16690 29045;
  G2 XOR 380 16690 29046; G2 XOR 379 16690 29047; G2 XOR 378 16690 29048; G2 XOR 377 16690 29049;
  G2 XOR 376 16690 29050; G2 XOR 375 16690 29051; G2 XOR 374 16690 29052; G2 XOR 373 16690 29053;
  G2 XOR 372 16690 29054; G2 XOR 371 16690 29055; G2 XOR 370 16690 29056; G2 XOR 369 16690 29057;
  G2 XOR 368 16690 29058; G2 XOR 367 16690 29059; G2 XOR 366 16690 29060; G2 XOR 365 16690 29061;
  G2 XOR 364 16690 29062; G2 XOR 363 16690 29063; G2 XOR 362 16690 29064; G2 XOR 361 16690 29065;
  G2 XOR 360 16690 29066; G2 XOR 359 16690 29067; G2 XOR 358 16690 29068; G2 XOR 357 16690 29069;
  G2 XOR 356 16690 29070; G2 XOR 355 16690 29071; G2 XOR 354 16690 29072; G2 XOR 353 16690 29073;
  G2 XOR 352 16690 29074; G2 XOR 351 16690 29075; G2 XOR 350 16690 29076; G2 XOR 349 16690 29077;
  G2 XOR 348 16690 29078; G2 XOR 347 16690 29079; G2 XOR 346 16690 29080; G2 XOR 345 16690 29081;
  G2 XOR 344 16690 29082; G2 XOR 343 16690 29083; G2 XOR 342 16690 29084; G2 XOR 341 16690 29085;
  G2 XOR 340 16690 29086; G2 XOR 339 16690 29087; G2 XOR 338 16690 29088; G2 XOR 337 16690 29089;
  G2 XOR 336 16690 29090; G2 XOR 335 16690 29091; G2 XOR 334 16690 29092; G2 XOR 333 16690 29093;
  G2 XOR 332 16690 29094; G2 XOR 331 16690 29095; G2 XOR 330 16690 29096; G2 XOR 329 16690 29097;
  G2 XOR 328 16690 29098; G2 XOR 327 16690 29099; G2 XOR 326 16690 29100; G2 XOR 325 16690 29101;
  G2 XOR 324 16690 29102; G2 XOR 323 16690 29103; G2 XOR 322 16690 29104; G2 XOR 321 16690 29105;
  G2 XOR 320 16690 29106; G2 AND 29044 16946 28918; G2 XOR 28981 28918 443; G2 XOR 443 16948 28793;
  G2 XOR 29045 28918 15882; G2 XOR 16947 28918 15881; G2 AND 15882 15881 15880; G2 XOR 15880 28918 28919;
  G2 XOR 28982 28919 442; G2 XOR 442 16949 28794; G2 XOR 29046 28919 15879; G2 XOR 16948 28919 15878;
  G2 AND 15879 15878 15877; G2 XOR 15877 28919 28920; G2 XOR 28983 28920 441; G2 XOR 441 16950 28795;
  G2 XOR 29047 28920 15876; G2 XOR 16949 28920 15875; G2 AND 15876 15875 15874; G2 XOR 15874 28920 28921;
  G2 XOR 28984 28921 440; G2 XOR 440 16951 28796; G2 XOR 29048 28921 15873; G2 XOR 16950 28921 15872;
  G2 AND 15873 15872 15871; G2 XOR 15871 28921 28922; G2 XOR 28985 28922 439; G2 XOR 439 16952 28797;
  G2 XOR 29049 28922 15870; G2 XOR 16951 28922 15869; G2 AND 15870 15869 15868; G2 XOR 15868 28922 28923;
  G2 XOR 28986 28923 438; G2 XOR 438 16953 28798; G2 XOR 29050 28923 15867; G2 XOR 16952 28923 15866;
  G2 AND 15867 15866 15865; G2 XOR 15865 28923 28924; G2 XOR 28987 28924 437; G2 XOR 437 16954 28799;
  G2 XOR 29051 28924 15864; G2 XOR 16953 28924 15863; G2 AND 15864 15863 15862; G2 XOR 15862 28924 28925;
  G2 XOR 28988 28925 436; G2 XOR 436 16955 28800; G2 XOR 29052 28925 15861; G2 XOR 16954 28925 15860;
  G2 AND 15861 15860 15859; G2 XOR 15859 28925 28926; G2 XOR 28989 28926 435; G2 XOR 435 16956 28801;
  G2 XOR 29053 28926 15858; G2 XOR 16955 28926 15857; G2 AND 15858 15857 15856; G2 XOR 15856 28926 28927;
  G2 XOR 28990 28927 434; G2 XOR 434 16957 28802; G2 XOR 29054 28927 15855; G2 XOR 16956 28927 15854;
  G2 AND 15855 15854 15853; G2 XOR 15853 28927 28928; G2 XOR 28991 28928 433; G2 XOR 433 16958 28803;
  G2 XOR 29055 28928 15852; G2 XOR 16957 28928 15851; G2 AND 15852 15851 15850; G2 XOR 15850 28928 28929;
  G2 XOR 28992 28929 432; G2 XOR 432 16959 28804; G2 XOR 29056 28929 15849; G2 XOR 16958 28929 15848;
  G2 AND 15849 15848 15847; G2 XOR 15847 28929 28930; G2 XOR 28993 28930 431; G2 XOR 431 16960 28805;
  G2 XOR 29057 28930 15846; G2 XOR 16959 28930 15845; G2 AND 15846 15845 15844; G2 XOR 15844 28930 28931;
  G2 XOR 28994 28931 430; G2 XOR 430 16961 28806; G2 XOR 29058 28931 15843; G2 XOR 16960 28931 15842;
  G2 AND 15843 15842 15841; G2 XOR 15841 28931 28932; G2 XOR 28995 28932 429; G2 XOR 429 16962 28807;
  G2 XOR 29059 28932 15840; G2 XOR 16961 28932 15839; G2 AND 15840 15839 15838; G2 XOR 15838 28932 28933;
  G2 XOR 28996 28933 428; G2 XOR 428 16963 28808; G2 XOR 29060 28933 15837; G2 XOR 16962 28933 15836;
  G2 AND 15837 15836 15835; G2 XOR 15835 28933 28934; G2 XOR 28997 28934 427; G2 XOR 427 16964 28809;
  G2 XOR 29061 28934 15834; G2 XOR 16963 28934 15833; G2 AND 15834 15833 15832; G2 XOR 15832 28934 28935;
  G2 XOR 28998 28935 426; G2 XOR 426 16965 28810; G2 XOR 29062 28935 15831; G2 XOR 16964 28935 15830;
  G2 AND 15831 15830 15829; G2 XOR 15829 28935 28936; G2 XOR 28999 28936 425; G2 XOR 425 16966 28811;
  G2 XOR 29063 28936 15828; G2 XOR 16965 28936 15827; G2 AND 15828 15827 15826; G2 XOR 15826 28936 28937;
  G2 XOR 29000 28937 424; G2 XOR 424 16967 28812; G2 XOR 29064 28937 15825; G2 XOR 16966 28937 15824;
  G2 AND 15825 15824 15823; G2 XOR 15823 28937 28938; G2 XOR 29001 28938 423; G2 XOR 423 16968 28813;
  G2 XOR 29065 28938 15822; G2 XOR 16967 28938 15821; G2 AND 15822 15821 15820; G2 XOR 15820 28938 28939;
  G2 XOR 29002 28939 422; G2 XOR 422 16969 28814; G2 XOR 29066 28939 15819; G2 XOR 16968 28939 15818;
  G2 AND 15819 15818 15817; G2 XOR 15817 28939 28940; G2 XOR 29003 28940 421; G2 XOR 421 16970 28815;
  G2 XOR 29067 28940 15816; G2 XOR 16969 28940 15815; G2 AND 15816 15815 15814; G2 XOR 15814 28940 28941;
  G2 XOR 29004 28941 420; G2 XOR 420 16971 28816; G2 XOR 29068 28941 15813; G2 XOR 16970 28941 15812;
  G2 AND 15813 15812 15811; G2 XOR 15811 28941 28942; G2 XOR 29005 28942 419; G2 XOR 419 16972 28817;
  G2 XOR 29069 28942 15810; G2 XOR 16971 28942 15809; G2 AND 15810 15809 15808; G2 XOR 15808 28942 28943;
  G2 XOR 29006 28943 418; G2 XOR 418 16973 28818; G2 XOR 29070 28943 15807; G2 XOR 16972 28943 15806;
  G2 AND 15807 15806 15805; G2 XOR 15805 28943 28944; G2 XOR 29007 28944 417; G2 XOR 417 16974 28819;
  G2 XOR 29071 28944 15804; G2 XOR 16973 28944 15803; G2 AND 15804 15803 15802; G2 XOR 15802 28944 28945;
  G2 XOR 29008 28945 416; G2 XOR 416 16975 28820; G2 XOR 29072 28945 15801; G2 XOR 16974 28945 15800;
  G2 AND 15801 15800 15799; G2 XOR 15799 28945 28946; G2 XOR 29009 28946 415; G2 XOR 415 16976 28821;
  G2 XOR 29073 28946 15798; G2 XOR 16975 28946 15797; G2 AND 15798 15797 15796; G2 XOR 15796 28946 28947;
  G2 XOR 29010 28947 414; G2 XOR 414 16977 28822; G2 XOR 29074 28947 15795; G2 XOR 16976 28947 15794;
  G2 AND 15795 15794 15793; G2 XOR 15793 28947 28948; G2 XOR 29011 28948 413; G2 XOR 413 16978 28823;
  G2 XOR 29075 28948 15792; G2 XOR 16977 28948 15791; G2 AND 15792 15791 15790; G2 XOR 15790 28948 28949;
  G2 XOR 29012 28949 412; G2 XOR 412 16979 28824; G2 XOR 29076 28949 15789; G2 XOR 16978 28949 15788;
  G2 AND 15789 15788 15787; G2 XOR 15787 28949 28950; G2 XOR 29013 28950 411; G2 XOR 411 16980 28825;
  G2 XOR 29077 28950 15786; G2 XOR 16979 28950 15785; G2 AND 15786 15785 15784; G2 XOR 15784 28950 28951;
  G2 XOR 29014 28951 410; G2 XOR 410 16981 28826; G2 XOR 29078 28951 15783; G2 XOR 16980 28951 15782;
  G2 AND 15783 15782 15781; G2 XOR 15781 28951 28952; G2 XOR 29015 28952 409; G2 XOR 409 16982 28827;
  G2 XOR 29079 28952 15780; G2 XOR 16981 28952 15779; G2 AND 15780 15779 15778; G2 XOR 15778 28952 28953;
  G2 XOR 29016 28953 408; G2 XOR 408 16983 28828; G2 XOR 29080 28953 15777; G2 XOR 16982 28953 15776;
  G2 AND 15777 15776 15775; G2 XOR 15775 28953 28954; G2 XOR 29017 28954 407; G2 XOR 407 16984 28829;
  G2 XOR 29081 28954 15774; G2 XOR 16983 28954 15773; G2 AND 15774 15773 15772; G2 XOR 15772 28954 28955;
  G2 XOR 29018 28955 406; G2 XOR 406 16985 28830; G2 XOR 29082 28955 15771; G2 XOR 16984 28955 15770;
  G2 AND 15771 15770 15769; G2 XOR 15769 28955 28956; G2 XOR 29019 28956 405; G2 XOR 405 16986 28831;
  G2 XOR 29083 28956 15768; G2 XOR 16985 28956 15767; G2 AND 15768 15767 15766; G2 XOR 15766 28956 28957;
  G2 XOR 29020 28957 404; G2 XOR 404 16987 28832; G2 XOR 29084 28957 15765; G2 XOR 16986 28957 15764;
  G2 AND 15765 15764 15763; G2 XOR 15763 28957 28958; G2 XOR 29021 28958 403; G2 XOR 403 16988 28833;
  G2 XOR 29085 28958 15762; G2 XOR 16987 28958 15761; G2 AND 15762 15761 15760; G2 XOR 15760 28958 28959;
  G2 XOR 29022 28959 402; G2 XOR 402 16989 28834; G2 XOR 29086 28959 15759; G2 XOR 16988 28959 15758;
  G2 AND 15759 15758 15757; G2 XOR 15757 28959 28960; G2 XOR 29023 28960 401; G2 XOR 401 16990 28835;
  G2 XOR 29087 28960 15756; G2 XOR 16989 28960 15755; G2 AND 15756 15755 15754; G2 XOR 15754 28960 28961;
  G2 XOR 29024 28961 400; G2 XOR 400 16991 28836; G2 XOR 29088 28961 15753; G2 XOR 16990 28961 15752;
  G2 AND 15753 15752 15751; G2 XOR 15751 28961 28962; G2 XOR 29025 28962 399; G2 XOR 399 16992 28837;
  G2 XOR 29089 28962 15750; G2 XOR 16991 28962 15749; G2 AND 15750 15749 15748; G2 XOR 15748 28962 28963;
  G2 XOR 29026 28963 398; G2 XOR 398 16993 28838; G2 XOR 29090 28963 15747; G2 XOR 16992 28963 15746;
  G2 AND 15747 15746 15745; G2 XOR 15745 28963 28964; G2 XOR 29027 28964 397; G2 XOR 397 16994 28839;
  G2 XOR 29091 28964 15744; G2 XOR 16993 28964 15743; G2 AND 15744 15743 15742; G2 XOR 15742 28964 28965;
  G2 XOR 29028 28965 396; G2 XOR 396 16995 28840; G2 XOR 29092 28965 15741; G2 XOR 16994 28965 15740;
  G2 AND 15741 15740 15739; G2 XOR 15739 28965 28966; G2 XOR 29029 28966 395; G2 XOR 395 16996 28841;
  G2 XOR 29093 28966 15738; G2 XOR 16995 28966 15737; G2 AND 15738 15737 15736; G2 XOR 15736 28966 28967;
  G2 XOR 29030 28967 394; G2 XOR 394 16997 28842; G2 XOR 29094 28967 15735; G2 XOR 16996 28967 15734;
  G2 AND 15735 15734 15733; G2 XOR 15733 28967 28968; G2 XOR 29031 28968 393; G2 XOR 393 16998 28843;
  G2 XOR 29095 28968 15732; G2 XOR 16997 28968 15731; G2 AND 15732 15731 15730; G2 XOR 15730 28968 28969;
  G2 XOR 29032 28969 392; G2 XOR 392 16999 28844; G2 XOR 29096 28969 15729; G2 XOR 16998 28969 15728;
  G2 AND 15729 15728 15727; G2 XOR 15727 28969 28970; G2 XOR 29033 28970 391; G2 XOR 391 17000 28845;
  G2 XOR 29097 28970 15726; G2 XOR 16999 28970 15725; G2 AND 15726 15725 15724; G2 XOR 15724 28970 28971;
  G2 XOR 29034 28971 390; G2 XOR 390 17001 28846; G2 XOR 29098 28971 15723; G2 XOR 17000 28971 15722;
  G2 AND 15723 15722 15721; G2 XOR 15721 28971 28972; G2 XOR 29035 28972 389; G2 XOR 389 17002 28847;
  G2 XOR 29099 28972 15720; G2 XOR 17001 28972 15719; G2 AND 15720 15719 15718; G2 XOR 15718 28972 28973;
  G2 XOR 29036 28973 388; G2 XOR 388 17003 28848; G2 XOR 29100 28973 15717; G2 XOR 17002 28973 15716;
  G2 AND 15717 15716 15715; G2 XOR 15715 28973 28974; G2 XOR 29037 28974 387; G2 XOR 387 17004 28849;
  G2 XOR 29101 28974 15714; G2 XOR 17003 28974 15713; G2 AND 15714 15713 15712; G2 XOR 15712 28974 28975;
  G2 XOR 29038 28975 386; G2 XOR 386 17005 28850; G2 XOR 29102 28975 15711; G2 XOR 17004 28975 15710;
  G2 AND 15711 15710 15709; G2 XOR 15709 28975 28976; G2 XOR 29039 28976 385; G2 XOR 385 17006 28851;
  G2 XOR 29103 28976 15708; G2 XOR 17005 28976 15707; G2 AND 15708 15707 15706; G2 XOR 15706 28976 28977;
  G2 XOR 29040 28977 384; G2 XOR 384 17007 28852; G2 XOR 29104 28977 15705; G2 XOR 17006 28977 15704;
  G2 AND 15705 15704 15703; G2 XOR 15703 28977 28978; G2 XOR 29041 28978 383; G2 XOR 383 17008 28853;
  G2 XOR 29105 28978 15702; G2 XOR 17007 28978 15701; G2 AND 15702 15701 15700; G2 XOR 15700 28978 28979;
  G2 XOR 29042 28979 382; G2 XOR 382 17009 28854; G2 XOR 29106 28979 15699; G2 XOR 17008 28979 15698;
  G2 AND 15699 15698 15697; G2 XOR 15697 28979 28980; G2 XOR 29043 28980 133; G2 AND 16690 4535 17574;
  G1 INV 133 16689; G2 XOR 16878 16689 28855; G2 XOR 444 16689 28856; G2 XOR 443 16689 28857;
  G2 XOR 442 16689 28858; G2 XOR 441 16689 28859; G2 XOR 440 16689 28860; G2 XOR 439 16689 28861;
  G2 XOR 438 16689 28862; G2 XOR 437 16689 28863; G2 XOR 436 16689 28864; G2 XOR 435 16689 28865;
  G2 XOR 434 16689 28866; G2 XOR 433 16689 28867; G2 XOR 432 16689 28868; G2 XOR 431 16689 28869;
  G2 XOR 430 16689 28870; G2 XOR 429 16689 28871; G2 XOR 428 16689 28872; G2 XOR 427 16689 28873;
  G2 XOR 426 16689 28874; G2 XOR 425 16689 28875; G2 XOR 424 16689 28876; G2 XOR 423 16689 28877;
  G2 XOR 422 16689 28878; G2 XOR 421 16689 28879; G2 XOR 420 16689 28880; G2 XOR 419 16689 28881;
  G2 XOR 418 16689 28882; G2 XOR 417 16689 28883; G2 XOR 416 16689 28884; G2 XOR 415 16689 28885;
  G2 XOR 414 16689 28886; G2 XOR 413 16689 28887; G2 XOR 412 16689 28888; G2 XOR 411 16689 28889;
  G2 XOR 410 16689 28890; G2 XOR 409 16689 28891; G2 XOR 408 16689 28892; G2 XOR 407 16689 28893;
  G2 XOR 406 16689 28894; G2 XOR 405 16689 28895; G2 XOR 404 16689 28896; G2 XOR 403 16689 28897;
  G2 XOR 402 16689 28898; G2 XOR 401 16689 28899; G2 XOR 400 16689 28900; G2 XOR 399 16689 28901;
  G2 XOR 398 16689 28902; G2 XOR 397 16689 28903; G2 XOR 396 16689 28904; G2 XOR 395 16689 28905;
  G2 XOR 394 16689 28906; G2 XOR 393 16689 28907; G2 XOR 392 16689 28908; G2 XOR 391 16689 28909;
  G2 XOR 390 16689 28910; G2 XOR 389 16689 28911; G2 XOR 388 16689 28912; G2 XOR 387 16689 28913;
  G2 XOR 386 16689 28914; G2 XOR 385 16689 28915; G2 XOR 384 16689 28916; G2 XOR 383 16689 28917;
  G2 AND 28855 16946 28729; G2 XOR 28792 28729 506; G2 XOR 506 16948 28604; G2 XOR 28856 28729 15696;
  G2 XOR 16947 28729 15695; G2 AND 15696 15695 15694; G2 XOR 15694 28729 28730; G2 XOR 28793 28730 505;
  G2 XOR 505 16949 28605; G2 XOR 28857 28730 15693; G2 XOR 16948 28730 15692; G2 AND 15693 15692 15691;
  G2 XOR 15691 28730 28731; G2 XOR 28794 28731 504; G2 XOR 504 16950 28606; G2 XOR 28858 28731 15690;
  G2 XOR 16949 28731 15689; G2 AND 15690 15689 15688; G2 XOR 15688 28731 28732; G2 XOR 28795 28732 503;
  G2 XOR 503 16951 28607; G2 XOR 28859 28732 15687; G2 XOR 16950 28732 15686; G2 AND 15687 15686 15685;
  G2 XOR 15685 28732 28733; G2 XOR 28796 28733 502; G2 XOR 502 16952 28608; G2 XOR 28860 28733 15684;
  G2 XOR 16951 28733 15683; G2 AND 15684 15683 15682; G2 XOR 15682 28733 28734; G2 XOR 28797 28734 501;
  G2 XOR 501 16953 28609; G2 XOR 28861 28734 15681; G2 XOR 16952 28734 15680; G2 AND 15681 15680 15679;
  G2 XOR 15679 28734 28735; G2 XOR 28798 28735 500; G2 XOR 500 16954 28610; G2 XOR 28862 28735 15678;
  G2 XOR 16953 28735 15677; G2 AND 15678 15677 15676; G2 XOR 15676 28735 28736; G2 XOR 28799 28736 499;
  G2 XOR 499 16955 28611; G2 XOR 28863 28736 15675; G2 XOR 16954 28736 15674; G2 AND 15675 15674 15673;
  G2 XOR 15673 28736 28737; G2 XOR 28800 28737 498; G2 XOR 498 16956 28612; G2 XOR 28864 28737 15672;
  G2 XOR 16955 28737 15671; G2 AND 15672 15671 15670; G2 XOR 15670 28737 28738; G2 XOR 28801 28738 497;
  G2 XOR 497 16957 28613; G2 XOR 28865 28738 15669; G2 XOR 16956 28738 15668; G2 AND 15669 15668 15667;
  G2 XOR 15667 28738 28739; G2 XOR 28802 28739 496; G2 XOR 496 16958 28614; G2 XOR 28866 28739 15666;
  G2 XOR 16957 28739 15665; G2 AND 15666 15665 15664; G2 XOR 15664 28739 28740; G2 XOR 28803 28740 495;
  G2 XOR 495 16959 28615; G2 XOR 28867 28740 15663; G2 XOR 16958 28740 15662; G2 AND 15663 15662 15661;
  G2 XOR 15661 28740 28741; G2 XOR 28804 28741 494; G2 XOR 494 16960 28616; G2 XOR 28868 28741 15660;
  G2 XOR 16959 28741 15659; G2 AND 15660 15659 15658; G2 XOR 15658 28741 28742; G2 XOR 28805 28742 493;
  G2 XOR 493 16961 28617; G2 XOR 28869 28742 15657; G2 XOR 16960 28742 15656; G2 AND 15657 15656 15655;
  G2 XOR 15655 28742 28743; G2 XOR 28806 28743 492; G2 XOR 492 16962 28618; G2 XOR 28870 28743 15654;
  G2 XOR 16961 28743 15653; G2 AND 15654 15653 15652; G2 XOR 15652 28743 28744; G2 XOR 28807 28744 491;
  G2 XOR 491 16963 28619; G2 XOR 28871 28744 15651; G2 XOR 16962 28744 15650; G2 AND 15651 15650 15649;
  G2 XOR 15649 28744 28745; G2 XOR 28808 28745 490; G2 XOR 490 16964 28620; G2 XOR 28872 28745 15648;
  G2 XOR 16963 28745 15647; G2 AND 15648 15647 15646; G2 XOR 15646 28745 28746; G2 XOR 28809 28746 489;
  G2 XOR 489 16965 28621; G2 XOR 28873 28746 15645; G2 XOR 16964 28746 15644; G2 AND 15645 15644 15643;
  G2 XOR 15643 28746 28747; G2 XOR 28810 28747 488; G2 XOR 488 16966 28622; G2 XOR 28874 28747 15642;
  G2 XOR 16965 28747 15641; G2 AND 15642 15641 15640; G2 XOR 15640 28747 28748; G2 XOR 28811 28748 487;
  G2 XOR 487 16967 28623; G2 XOR 28875 28748 15639; G2 XOR 16966 28748 15638; G2 AND 15639 15638 15637;
  G2 XOR 15637 28748 28749; G2 XOR 28812 28749 486; G2 XOR 486 16968 28624; G2 XOR 28876 28749 15636;
  G2 XOR 16967 28749 15635; G2 AND 15636 15635 15634; G2 XOR 15634 28749 28750; G2 XOR 28813 28750 485;
  G2 XOR 485 16969 28625; G2 XOR 28877 28750 15633; G2 XOR 16968 28750 15632; G2 AND 15633 15632 15631;
  G2 XOR 15631 28750 28751; G2 XOR 28814 28751 484; G2 XOR 484 16970 28626; G2 XOR 28878 28751 15630;
  G2 XOR 16969 28751 15629; G2 AND 15630 15629 15628; G2 XOR 15628 28751 28752; G2 XOR 28815 28752 483;
  G2 XOR 483 16971 28627; G2 XOR 28879 28752 15627; G2 XOR 16970 28752 15626; G2 AND 15627 15626 15625;
  G2 XOR 15625 28752 28753; G2 XOR 28816 28753 482; G2 XOR 482 16972 28628; G2 XOR 28880 28753 15624;
  G2 XOR 16971 28753 15623; G2 AND 15624 15623 15622; G2 XOR 15622 28753 28754; G2 XOR 28817 28754 481;
  G2 XOR 481 16973 28629; G2 XOR 28881 28754 15621; G2 XOR 16972 28754 15620; G2 AND 15621 15620 15619;
  G2 XOR 15619 28754 28755; G2 XOR 28818 28755 480; G2 XOR 480 16974 28630; G2 XOR 28882 28755 15618;
  G2 XOR 16973 28755 15617; G2 AND 15618 15617 15616; G2 XOR 15616 28755 28756; G2 XOR 28819 28756 479;
  G2 XOR 479 16975 28631; G2 XOR 28883 28756 15615; G2 XOR 16974 28756 15614; G2 AND 15615 15614 15613;
  G2 XOR 15613 28756 28757; G2 XOR 28820 28757 478; G2 XOR 478 16976 28632; G2 XOR 28884 28757 15612;
  G2 XOR 16975 28757 15611; G2 AND 15612 15611 15610; G2 XOR 15610 28757 28758; G2 XOR 28821 28758 477;
  G2 XOR 477 16977 28633; G2 XOR 28885 28758 15609; G2 XOR 16976 28758 15608; G2 AND 15609 15608 15607;
  G2 XOR 15607 28758 28759; G2 XOR 28822 28759 476; G2 XOR 476 16978 28634; G2 XOR 28886 28759 15606;
  G2 XOR 16977 28759 15605; G2 AND 15606 15605 15604; G2 XOR 15604 28759 28760; G2 XOR 28823 28760 475;
  G2 XOR 475 16979 28635; G2 XOR 28887 28760 15603; G2 XOR 16978 28760 15602; G2 AND 15603 15602 15601;
  G2 XOR 15601 28760 28761; G2 XOR 28824 28761 474; G2 XOR 474 16980 28636; G2 XOR 28888 28761 15600;
  G2 XOR 16979 28761 15599; G2 AND 15600 15599 15598; G2 XOR 15598 28761 28762; G2 XOR 28825 28762 473;
  G2 XOR 473 16981 28637; G2 XOR 28889 28762 15597; G2 XOR 16980 28762 15596; G2 AND 15597 15596 15595;
  G2 XOR 15595 28762 28763; G2 XOR 28826 28763 472; G2 XOR 472 16982 28638; G2 XOR 28890 28763 15594;
  G2 XOR 16981 28763 15593; G2 AND 15594 15593 15592; G2 XOR 15592 28763 28764; G2 XOR 28827 28764 471;
  G2 XOR 471 16983 28639; G2 XOR 28891 28764 15591; G2 XOR 16982 28764 15590; G2 AND 15591 15590 15589;
  G2 XOR 15589 28764 28765; G2 XOR 28828 28765 470; G2 XOR 470 16984 28640; G2 XOR 28892 28765 15588;
  G2 XOR 16983 28765 15587; G2 AND 15588 15587 15586; G2 XOR 15586 28765 28766; G2 XOR 28829 28766 469;
  G2 XOR 469 16985 28641; G2 XOR 28893 28766 15585; G2 XOR 16984 28766 15584; G2 AND 15585 15584 15583;
  G2 XOR 15583 28766 28767; G2 XOR 28830 28767 468; G2 XOR 468 16986 28642; G2 XOR 28894 28767 15582;
  G2 XOR 16985 28767 15581; G2 AND 15582 15581 15580; G2 XOR 15580 28767 28768; G2 XOR 28831 28768 467;
  G2 XOR 467 16987 28643; G2 XOR 28895 28768 15579; G2 XOR 16986 28768 15578; G2 AND 15579 15578 15577;
  G2 XOR 15577 28768 28769; G2 XOR 28832 28769 466; G2 XOR 466 16988 28644; G2 XOR 28896 28769 15576;
  G2 XOR 16987 28769 15575; G2 AND 15576 15575 15574; G2 XOR 15574 28769 28770; G2 XOR 28833 28770 465;
  G2 XOR 465 16989 28645; G2 XOR 28897 28770 15573; G2 XOR 16988 28770 15572; G2 AND 15573 15572 15571;
  G2 XOR 15571 28770 28771; G2 XOR 28834 28771 464; G2 XOR 464 16990 28646; G2 XOR 28898 28771 15570;
  G2 XOR 16989 28771 15569; G2 AND 15570 15569 15568; G2 XOR 15568 28771 28772; G2 XOR 28835 28772 463;
  G2 XOR 463 16991 28647; G2 XOR 28899 28772 15567; G2 XOR 16990 28772 15566; G2 AND 15567 15566 15565;
  G2 XOR 15565 28772 28773; G2 XOR 28836 28773 462; G2 XOR 462 16992 28648; G2 XOR 28900 28773 15564;
  G2 XOR 16991 28773 15563; G2 AND 15564 15563 15562; G2 XOR 15562 28773 28774; G2 XOR 28837 28774 461;
  G2 XOR 461 16993 28649; G2 XOR 28901 28774 15561; G2 XOR 16992 28774 15560; G2 AND 15561 15560 15559;
  G2 XOR 15559 28774 28775; G2 XOR 28838 28775 460; G2 XOR 460 16994 28650; G2 XOR 28902 28775 15558;
  G2 XOR 16993 28775 15557; G2 AND 15558 15557 15556; G2 XOR 15556 28775 28776; G2 XOR 28839 28776 459;
  G2 XOR 459 16995 28651; G2 XOR 28903 28776 15555; G2 XOR 16994 28776 15554; G2 AND 15555 15554 15553;
  G2 XOR 15553 28776 28777; G2 XOR 28840 28777 458; G2 XOR 458 16996 28652; G2 XOR 28904 28777 15552;
  G2 XOR 16995 28777 15551; G2 AND 15552 15551 15550; G2 XOR 15550 28777 28778; G2 XOR 28841 28778 457;
  G2 XOR 457 16997 28653; G2 XOR 28905 28778 15549; G2 XOR 16996 28778 15548; G2 AND 15549 15548 15547;
  G2 XOR 15547 28778 28779; G2 XOR 28842 28779 456; G2 XOR 456 16998 28654; G2 XOR 28906 28779 15546;
  G2 XOR 16997 28779 15545; G2 AND 15546 15545 15544; G2 XOR 15544 28779 28780; G2 XOR 28843 28780 455;
  G2 XOR 455 16999 28655; G2 XOR 28907 28780 15543; G2 XOR 16998 28780 15542; G2 AND 15543 15542 15541;
  G2 XOR 15541 28780 28781; G2 XOR 28844 28781 454; G2 XOR 454 17000 28656; G2 XOR 28908 28781 15540;
  G2 XOR 16999 28781 15539; G2 AND 15540 15539 15538; G2 XOR 15538 28781 28782; G2 XOR 28845 28782 453;
  G2 XOR 453 17001 28657; G2 XOR 28909 28782 15537; G2 XOR 17000 28782 15536; G2 AND 15537 15536 15535;
  G2 XOR 15535 28782 28783; G2 XOR 28846 28783 452; G2 XOR 452 17002 28658; G2 XOR 28910 28783 15534;
  G2 XOR 17001 28783 15533; G2 AND 15534 15533 15532; G2 XOR 15532 28783 28784; G2 XOR 28847 28784 451;
  G2 XOR 451 17003 28659; G2 XOR 28911 28784 15531; G2 XOR 17002 28784 15530; G2 AND 15531 15530 15529;
  G2 XOR 15529 28784 28785; G2 XOR 28848 28785 450; G2 XOR 450 17004 28660; G2 XOR 28912 28785 15528;
  G2 XOR 17003 28785 15527; G2 AND 15528 15527 15526; G2 XOR 15526 28785 28786; G2 XOR 28849 28786 449;
  G2 XOR 449 17005 28661; G2 XOR 28913 28786 15525; G2 XOR 17004 28786 15524; G2 AND 15525 15524 15523;
  G2 XOR 15523 28786 28787; G2 XOR 28850 28787 448; G2 XOR 448 17006 28662; G2 XOR 28914 28787 15522;
  G2 XOR 17005 28787 15521; G2 AND 15522 15521 15520; G2 XOR 15520 28787 28788; G2 XOR 28851 28788 447;
  G2 XOR 447 17007 28663; G2 XOR 28915 28788 15519; G2 XOR 17006 28788 15518; G2 AND 15519 15518 15517;
  G2 XOR 15517 28788 28789; G2 XOR 28852 28789 446; G2 XOR 446 17008 28664; G2 XOR 28916 28789 15516;
  G2 XOR 17007 28789 15515; G2 AND 15516 15515 15514; G2 XOR 15514 28789 28790; G2 XOR 28853 28790 445;
  G2 XOR 445 17009 28665; G2 XOR 28917 28790 15513; G2 XOR 17008 28790 15512; G2 AND 15513 15512 15511;
  G2 XOR 15511 28790 28791; G2 XOR 28854 28791 134; G1 INV 134 16688; G2 XOR 16877 16688 28666;
  G2 XOR 507 16688 28667; G2 XOR 506 16688 28668; G2 XOR 505 16688 28669; G2 XOR 504 16688 28670;
  G2 XOR 503 16688 28671; G2 XOR 502 16688 28672; G2 XOR 501 16688 28673; G2 XOR 500 16688 28674;
  G2 XOR 499 16688 28675; G2 XOR 498 16688 28676; G2 XOR 497 16688 28677; G2 XOR 496 16688 28678;
  G2 XOR 495 16688 28679; G2 XOR 494 16688 28680; G2 XOR 493 16688 28681; G2 XOR 492 16688 28682;
  G2 XOR 491 16688 28683; G2 XOR 490 16688 28684; G2 XOR 489 16688 28685; G2 XOR 488 16688 28686;
  G2 XOR 487 16688 28687; G2 XOR 486 16688 28688; G2 XOR 485 16688 28689; G2 XOR 484 16688 28690;
  G2 XOR 483 16688 28691; G2 XOR 482 16688 28692; G2 XOR 481 16688 28693; G2 XOR 480 16688 28694;
  G2 XOR 479 16688 28695; G2 XOR 478 16688 28696; G2 XOR 477 16688 28697; G2 XOR 476 16688 28698;
  G2 XOR 475 16688 28699; G2 XOR 474 16688 28700; G2 XOR 473 16688 28701; G2 XOR 472 16688 28702;
  G2 XOR 471 16688 28703; G2 XOR 470 16688 28704; G2 XOR 469 16688 28705; G2 XOR 468 16688 28706;
  G2 XOR 467 16688 28707; G2 XOR 466 16688 28708; G2 XOR 465 16688 28709; G2 XOR 464 16688 28710;
  G2 XOR 463 16688 28711; G2 XOR 462 16688 28712; G2 XOR 461 16688 28713; G2 XOR 460 16688 28714;
  G2 XOR 459 16688 28715; G2 XOR 458 16688 28716; G2 XOR 457 16688 28717; G2 XOR 456 16688 28718;
  G2 XOR 455 16688 28719; G2 XOR 454 16688 28720; G2 XOR 453 16688 28721; G2 XOR 452 16688 28722;
  G2 XOR 451 16688 28723; G2 XOR 450 16688 28724; G2 XOR 449 16688 28725; G2 XOR 448 16688 28726;
  G2 XOR 447 16688 28727; G2 XOR 446 16688 28728; G2 AND 28666 16946 28540; G2 XOR 28603 28540 569;
  G2 XOR 569 16948 28415; G2 XOR 28667 28540 15510; G2 XOR 16947 28540 15509; G2 AND 15510 15509 15508;
  G2 XOR 15508 28540 28541; G2 XOR 28604 28541 568; G2 XOR 568 16949 28416; G2 XOR 28668 28541 15507;
  G2 XOR 16948 28541 15506; G2 AND 15507 15506 15505; G2 XOR 15505 28541 28542; G2 XOR 28605 28542 567;
  G2 XOR 567 16950 28417; G2 XOR 28669 28542 15504; G2 XOR 16949 28542 15503; G2 AND 15504 15503 15502;
  G2 XOR 15502 28542 28543; G2 XOR 28606 28543 566; G2 XOR 566 16951 28418; G2 XOR 28670 28543 15501;
  G2 XOR 16950 28543 15500; G2 AND 15501 15500 15499; G2 XOR 15499 28543 28544; G2 XOR 28607 28544 565;
  G2 XOR 565 16952 28419; G2 XOR 28671 28544 15498; G2 XOR 16951 28544 15497; G2 AND 15498 15497 15496;
  G2 XOR 15496 28544 28545; G2 XOR 28608 28545 564; G2 XOR 564 16953 28420; G2 XOR 28672 28545 15495;
  G2 XOR 16952 28545 15494; G2 AND 15495 15494 15493; G2 XOR 15493 28545 28546; G2 XOR 28609 28546 563;
  G2 XOR 563 16954 28421; G2 XOR 28673 28546 15492; G2 XOR 16953 28546 15491; G2 AND 15492 15491 15490;
  G2 XOR 15490 28546 28547; G2 XOR 28610 28547 562; G2 XOR 562 16955 28422; G2 XOR 28674 28547 15489;
  G2 XOR 16954 28547 15488; G2 AND 15489 15488 15487; G2 XOR 15487 28547 28548; G2 XOR 28611 28548 561;
  G2 XOR 561 16956 28423; G2 XOR 28675 28548 15486; G2 XOR 16955 28548 15485; G2 AND 15486 15485 15484;
  G2 XOR 15484 28548 28549; G2 XOR 28612 28549 560; G2 XOR 560 16957 28424; G2 XOR 28676 28549 15483;
  G2 XOR 16956 28549 15482; G2 AND 15483 15482 15481; G2 XOR 15481 28549 28550; G2 XOR 28613 28550 559;
  G2 XOR 559 16958 28425; G2 XOR 28677 28550 15480; G2 XOR 16957 28550 15479; G2 AND 15480 15479 15478;
  G2 XOR 15478 28550 28551; G2 XOR 28614 28551 558; G2 XOR 558 16959 28426; G2 XOR 28678 28551 15477;
  G2 XOR 16958 28551 15476; G2 AND 15477 15476 15475; G2 XOR 15475 28551 28552; G2 XOR 28615 28552 557;
  G2 XOR 557 16960 28427; G2 XOR 28679 28552 15474; G2 XOR 16959 28552 15473; G2 AND 15474 15473 15472;
  G2 XOR 15472 28552 28553; G2 XOR 28616 28553 556; G2 XOR 556 16961 28428; G2 XOR 28680 28553 15471;
  G2 XOR 16960 28553 15470; G2 AND 15471 15470 15469; G2 XOR 15469 28553 28554; G2 XOR 28617 28554 555;
  G2 XOR 555 16962 28429; G2 XOR 28681 28554 15468; G2 XOR 16961 28554 15467; G2 AND 15468 15467 15466;
  G2 XOR 15466 28554 28555; G2 XOR 28618 28555 554; G2 XOR 554 16963 28430; G2 XOR 28682 28555 15465;
  G2 XOR 16962 28555 15464; G2 AND 15465 15464 15463; G2 XOR 15463 28555 28556; G2 XOR 28619 28556 553;
  G2 XOR 553 16964 28431; G2 XOR 28683 28556 15462; G2 XOR 16963 28556 15461; G2 AND 15462 15461 15460;
  G2 XOR 15460 28556 28557; G2 XOR 28620 28557 552; G2 XOR 552 16965 28432; G2 XOR 28684 28557 15459;
  G2 XOR 16964 28557 15458; G2 AND 15459 15458 15457; G2 XOR 15457 28557 28558; G2 XOR 28621 28558 551;
  G2 XOR 551 16966 28433; G2 XOR 28685 28558 15456; G2 XOR 16965 28558 15455; G2 AND 15456 15455 15454;
  G2 XOR 15454 28558 28559; G2 XOR 28622 28559 550; G2 XOR 550 16967 28434; G2 XOR 28686 28559 15453;
  G2 XOR 16966 28559 15452; G2 AND 15453 15452 15451; G2 XOR 15451 28559 28560; G2 XOR 28623 28560 549;
  G2 XOR 549 16968 28435; G2 XOR 28687 28560 15450; G2 XOR 16967 28560 15449; G2 AND 15450 15449 15448;
  G2 XOR 15448 28560 28561; G2 XOR 28624 28561 548; G2 XOR 548 16969 28436; G2 XOR 28688 28561 15447;
  G2 XOR 16968 28561 15446; G2 AND 15447 15446 15445; G2 XOR 15445 28561 28562; G2 XOR 28625 28562 547;
  G2 XOR 547 16970 28437; G2 XOR 28689 28562 15444; G2 XOR 16969 28562 15443; G2 AND 15444 15443 15442;
  G2 XOR 15442 28562 28563; G2 XOR 28626 28563 546; G2 XOR 546 16971 28438; G2 XOR 28690 28563 15441;
  G2 XOR 16970 28563 15440; G2 AND 15441 15440 15439; G2 XOR 15439 28563 28564; G2 XOR 28627 28564 545;
  G2 XOR 545 16972 28439; G2 XOR 28691 28564 15438; G2 XOR 16971 28564 15437; G2 AND 15438 15437 15436;
  G2 XOR 15436 28564 28565; G2 XOR 28628 28565 544; G2 XOR 544 16973 28440; G2 XOR 28692 28565 15435;
  G2 XOR 16972 28565 15434; G2 AND 15435 15434 15433; G2 XOR 15433 28565 28566; G2 XOR 28629 28566 543;
  G2 XOR 543 16974 28441; G2 XOR 28693 28566 15432; G2 XOR 16973 28566 15431; G2 AND 15432 15431 15430;
  G2 XOR 15430 28566 28567; G2 XOR 28630 28567 542; G2 XOR 542 16975 28442; G2 XOR 28694 28567 15429;
  G2 XOR 16974 28567 15428; G2 AND 15429 15428 15427; G2 XOR 15427 28567 28568; G2 XOR 28631 28568 541;
  G2 XOR 541 16976 28443; G2 XOR 28695 28568 15426; G2 XOR 16975 28568 15425; G2 AND 15426 15425 15424;
  G2 XOR 15424 28568 28569; G2 XOR 28632 28569 540; G2 XOR 540 16977 28444; G2 XOR 28696 28569 15423;
  G2 XOR 16976 28569 15422; G2 AND 15423 15422 15421; G2 XOR 15421 28569 28570; G2 XOR 28633 28570 539;
  G2 XOR 539 16978 28445; G2 XOR 28697 28570 15420; G2 XOR 16977 28570 15419; G2 AND 15420 15419 15418;
  G2 XOR 15418 28570 28571; G2 XOR 28634 28571 538; G2 XOR 538 16979 28446; G2 XOR 28698 28571 15417;
  G2 XOR 16978 28571 15416; G2 AND 15417 15416 15415; G2 XOR 15415 28571 28572; G2 XOR 28635 28572 537;
  G2 XOR 537 16980 28447; G2 XOR 28699 28572 15414; G2 XOR 16979 28572 15413; G2 AND 15414 15413 15412;
  G2 XOR 15412 28572 28573; G2 XOR 28636 28573 536; G2 XOR 536 16981 28448; G2 XOR 28700 28573 15411;
  G2 XOR 16980 28573 15410; G2 AND 15411 15410 15409; G2 XOR 15409 28573 28574; G2 XOR 28637 28574 535;
  G2 XOR 535 16982 28449; G2 XOR 28701 28574 15408; G2 XOR 16981 28574 15407; G2 AND 15408 15407 15406;
  G2 XOR 15406 28574 28575; G2 XOR 28638 28575 534; G2 XOR 534 16983 28450; G2 XOR 28702 28575 15405;
  G2 XOR 16982 28575 15404; G2 AND 15405 15404 15403; G2 XOR 15403 28575 28576; G2 XOR 28639 28576 533;
  G2 XOR 533 16984 28451; G2 XOR 28703 28576 15402; G2 XOR 16983 28576 15401; G2 AND 15402 15401 15400;
  G2 XOR 15400 28576 28577; G2 XOR 28640 28577 532; G2 XOR 532 16985 28452; G2 XOR 28704 28577 15399;
  G2 XOR 16984 28577 15398; G2 AND 15399 15398 15397; G2 XOR 15397 28577 28578; G2 XOR 28641 28578 531;
  G2 XOR 531 16986 28453; G2 XOR 28705 28578 15396; G2 XOR 16985 28578 15395; G2 AND 15396 15395 15394;
  G2 XOR 15394 28578 28579; G2 XOR 28642 28579 530; G2 XOR 530 16987 28454; G2 XOR 28706 28579 15393;
  G2 XOR 16986 28579 15392; G2 AND 15393 15392 15391; G2 XOR 15391 28579 28580; G2 XOR 28643 28580 529;
  G2 XOR 529 16988 28455; G2 XOR 28707 28580 15390; G2 XOR 16987 28580 15389; G2 AND 15390 15389 15388;
  G2 XOR 15388 28580 28581; G2 XOR 28644 28581 528; G2 XOR 528 16989 28456; G2 XOR 28708 28581 15387;
  G2 XOR 16988 28581 15386; G2 AND 15387 15386 15385; G2 XOR 15385 28581 28582; G2 XOR 28645 28582 527;
  G2 XOR 527 16990 28457; G2 XOR 28709 28582 15384; G2 XOR 16989 28582 15383; G2 AND 15384 15383 15382;
  G2 XOR 15382 28582 28583; G2 XOR 28646 28583 526; G2 XOR 526 16991 28458; G2 XOR 28710 28583 15381;
  G2 XOR 16990 28583 15380; G2 AND 15381 15380 15379; G2 XOR 15379 28583 28584; G2 XOR 28647 28584 525;
  G2 XOR 525 16992 28459; G2 XOR 28711 28584 15378; G2 XOR 16991 28584 15377; G2 AND 15378 15377 15376;
  G2 XOR 15376 28584 28585; G2 XOR 28648 28585 524; G2 XOR 524 16993 28460; G2 XOR 28712 28585 15375;
  G2 XOR 16992 28585 15374; G2 AND 15375 15374 15373; G2 XOR 15373 28585 28586; G2 XOR 28649 28586 523;
  G2 XOR 523 16994 28461; G2 XOR 28713 28586 15372; G2 XOR 16993 28586 15371; G2 AND 15372 15371 15370;
  G2 XOR 15370 28586 28587; G2 XOR 28650 28587 522; G2 XOR 522 16995 28462; G2 XOR 28714 28587 15369;
  G2 XOR 16994 28587 15368; G2 AND 15369 15368 15367; G2 XOR 15367 28587 28588; G2 XOR 28651 28588 521;
  G2 XOR 521 16996 28463; G2 XOR 28715 28588 15366; G2 XOR 16995 28588 15365; G2 AND 15366 15365 15364;
  G2 XOR 15364 28588 28589; G2 XOR 28652 28589 520; G2 XOR 520 16997 28464; G2 XOR 28716 28589 15363;
  G2 XOR 16996 28589 15362; G2 AND 15363 15362 15361; G2 XOR 15361 28589 28590; G2 XOR 28653 28590 519;
  G2 XOR 519 16998 28465; G2 XOR 28717 28590 15360; G2 XOR 16997 28590 15359; G2 AND 15360 15359 15358;
  G2 XOR 15358 28590 28591; G2 XOR 28654 28591 518; G2 XOR 518 16999 28466; G2 XOR 28718 28591 15357;
  G2 XOR 16998 28591 15356; G2 AND 15357 15356 15355; G2 XOR 15355 28591 28592; G2 XOR 28655 28592 517;
  G2 XOR 517 17000 28467; G2 XOR 28719 28592 15354; G2 XOR 16999 28592 15353; G2 AND 15354 15353 15352;
  G2 XOR 15352 28592 28593; G2 XOR 28656 28593 516; G2 XOR 516 17001 28468; G2 XOR 28720 28593 15351;
  G2 XOR 17000 28593 15350; G2 AND 15351 15350 15349; G2 XOR 15349 28593 28594; G2 XOR 28657 28594 515;
  G2 XOR 515 17002 28469; G2 XOR 28721 28594 15348; G2 XOR 17001 28594 15347; G2 AND 15348 15347 15346;
  G2 XOR 15346 28594 28595; G2 XOR 28658 28595 514; G2 XOR 514 17003 28470; G2 XOR 28722 28595 15345;
  G2 XOR 17002 28595 15344; G2 AND 15345 15344 15343; G2 XOR 15343 28595 28596; G2 XOR 28659 28596 513;
  G2 XOR 513 17004 28471; G2 XOR 28723 28596 15342; G2 XOR 17003 28596 15341; G2 AND 15342 15341 15340;
  G2 XOR 15340 28596 28597; G2 XOR 28660 28597 512; G2 XOR 512 17005 28472; G2 XOR 28724 28597 15339;
  G2 XOR 17004 28597 15338; G2 AND 15339 15338 15337; G2 XOR 15337 28597 28598; G2 XOR 28661 28598 511;
  G2 XOR 511 17006 28473; G2 XOR 28725 28598 15336; G2 XOR 17005 28598 15335; G2 AND 15336 15335 15334;
  G2 XOR 15334 28598 28599; G2 XOR 28662 28599 510; G2 XOR 510 17007 28474; G2 XOR 28726 28599 15333;
  G2 XOR 17006 28599 15332; G2 AND 15333 15332 15331; G2 XOR 15331 28599 28600; G2 XOR 28663 28600 509;
  G2 XOR 509 17008 28475; G2 XOR 28727 28600 15330; G2 XOR 17007 28600 15329; G2 AND 15330 15329 15328;
  G2 XOR 15328 28600 28601; G2 XOR 28664 28601 508; G2 XOR 508 17009 28476; G2 XOR 28728 28601 15327;
  G2 XOR 17008 28601 15326; G2 AND 15327 15326 15325; G2 XOR 15325 28601 28602; G2 XOR 28665 28602 135;
  G2 AND 16688 4535 17572; G1 INV 135 16687; G2 XOR 16876 16687 28477; G2 XOR 570 16687 28478;
  G2 XOR 569 16687 28479; G2 XOR 568 16687 28480; G2 XOR 567 16687 28481; G2 XOR 566 16687 28482;
  G2 XOR 565 16687 28483; G2 XOR 564 16687 28484; G2 XOR 563 16687 28485; G2 XOR 562 16687 28486;
  G2 XOR 561 16687 28487; G2 XOR 560 16687 28488; G2 XOR 559 16687 28489; G2 XOR 558 16687 28490;
  G2 XOR 557 16687 28491; G2 XOR 556 16687 28492; G2 XOR 555 16687 28493; G2 XOR 554 16687 28494;
  G2 XOR 553 16687 28495; G2 XOR 552 16687 28496; G2 XOR 551 16687 28497; G2 XOR 550 16687 28498;
  G2 XOR 549 16687 28499; G2 XOR 548 16687 28500; G2 XOR 547 16687 28501; G2 XOR 546 16687 28502;
  G2 XOR 545 16687 28503; G2 XOR 544 16687 28504; G2 XOR 543 16687 28505; G2 XOR 542 16687 28506;
  G2 XOR 541 16687 28507; G2 XOR 540 16687 28508; G2 XOR 539 16687 28509; G2 XOR 538 16687 28510;
  G2 XOR 537 16687 28511; G2 XOR 536 16687 28512; G2 XOR 535 16687 28513; G2 XOR 534 16687 28514;
  G2 XOR 533 16687 28515; G2 XOR 532 16687 28516; G2 XOR 531 16687 28517; G2 XOR 530 16687 28518;
  G2 XOR 529 16687 28519; G2 XOR 528 16687 28520; G2 XOR 527 16687 28521; G2 XOR 526 16687 28522;
  G2 XOR 525 16687 28523; G2 XOR 524 16687 28524; G2 XOR 523 16687 28525; G2 XOR 522 16687 28526;
  G2 XOR 521 16687 28527; G2 XOR 520 16687 28528; G2 XOR 519 16687 28529; G2 XOR 518 16687 28530;
  G2 XOR 517 16687 28531; G2 XOR 516 16687 28532; G2 XOR 515 16687 28533; G2 XOR 514 16687 28534;
  G2 XOR 513 16687 28535; G2 XOR 512 16687 28536; G2 XOR 511 16687 28537; G2 XOR 510 16687 28538;
  G2 XOR 509 16687 28539; G2 AND 28477 16946 28351; G2 XOR 28414 28351 632; G2 XOR 632 16948 28226;
  G2 XOR 28478 28351 15324; G2 XOR 16947 28351 15323; G2 AND 15324 15323 15322; G2 XOR 15322 28351 28352;
  G2 XOR 28415 28352 631; G2 XOR 631 16949 28227; G2 XOR 28479 28352 15321; G2 XOR 16948 28352 15320;
  G2 AND 15321 15320 15319; G2 XOR 15319 28352 28353; G2 XOR 28416 28353 630; G2 XOR 630 16950 28228;
  G2 XOR 28480 28353 15318; G2 XOR 16949 28353 15317; G2 AND 15318 15317 15316; G2 XOR 15316 28353 28354;
  G2 XOR 28417 28354 629; G2 XOR 629 16951 28229; G2 XOR 28481 28354 15315; G2 XOR 16950 28354 15314;
  G2 AND 15315 15314 15313; G2 XOR 15313 28354 28355; G2 XOR 28418 28355 628; G2 XOR 628 16952 28230;
  G2 XOR 28482 28355 15312; G2 XOR 16951 28355 15311; G2 AND 15312 15311 15310; G2 XOR 15310 28355 28356;
  G2 XOR 28419 28356 627; G2 XOR 627 16953 28231; G2 XOR 28483 28356 15309; G2 XOR 16952 28356 15308;
  G2 AND 15309 15308 15307; G2 XOR 15307 28356 28357; G2 XOR 28420 28357 626; G2 XOR 626 16954 28232;
  G2 XOR 28484 28357 15306; G2 XOR 16953 28357 15305; G2 AND 15306 15305 15304; G2 XOR 15304 28357 28358;
  G2 XOR 28421 28358 625; G2 XOR 625 16955 28233; G2 XOR 28485 28358 15303; G2 XOR 16954 28358 15302;
  G2 AND 15303 15302 15301; G2 XOR 15301 28358 28359; G2 XOR 28422 28359 624; G2 XOR 624 16956 28234;
  G2 XOR 28486 28359 15300; G2 XOR 16955 28359 15299; G2 AND 15300 15299 15298; G2 XOR 15298 28359 28360;
  G2 XOR 28423 28360 623; G2 XOR 623 16957 28235; G2 XOR 28487 28360 15297; G2 XOR 16956 28360 15296;
  G2 AND 15297 15296 15295; G2 XOR 15295 28360 28361; G2 XOR 28424 28361 622; G2 XOR 622 16958 28236;
  G2 XOR 28488 28361 15294; G2 XOR 16957 28361 15293; G2 AND 15294 15293 15292; G2 XOR 15292 28361 28362;
  G2 XOR 28425 28362 621; G2 XOR 621 16959 28237; G2 XOR 28489 28362 15291; G2 XOR 16958 28362 15290;
  G2 AND 15291 15290 15289; G2 XOR 15289 28362 28363; G2 XOR 28426 28363 620; G2 XOR 620 16960 28238;
  G2 XOR 28490 28363 15288; G2 XOR 16959 28363 15287; G2 AND 15288 15287 15286; G2 XOR 15286 28363 28364;
  G2 XOR 28427 28364 619; G2 XOR 619 16961 28239; G2 XOR 28491 28364 15285; G2 XOR 16960 28364 15284;
  G2 AND 15285 15284 15283; G2 XOR 15283 28364 28365; G2 XOR 28428 28365 618; G2 XOR 618 16962 28240;
  G2 XOR 28492 28365 15282; G2 XOR 16961 28365 15281; G2 AND 15282 15281 15280; G2 XOR 15280 28365 28366;
  G2 XOR 28429 28366 617; G2 XOR 617 16963 28241; G2 XOR 28493 28366 15279; G2 XOR 16962 28366 15278;
  G2 AND 15279 15278 15277; G2 XOR 15277 28366 28367; G2 XOR 28430 28367 616; G2 XOR 616 16964 28242;
  G2 XOR 28494 28367 15276; G2 XOR 16963 28367 15275; G2 AND 15276 15275 15274; G2 XOR 15274 28367 28368;
  G2 XOR 28431 28368 615; G2 XOR 615 16965 28243; G2 XOR 28495 28368 15273; G2 XOR 16964 28368 15272;
  G2 AND 15273 15272 15271; G2 XOR 15271 28368 28369; G2 XOR 28432 28369 614; G2 XOR 614 16966 28244;
  G2 XOR 28496 28369 15270; G2 XOR 16965 28369 15269; G2 AND 15270 15269 15268; G2 XOR 15268 28369 28370;
  G2 XOR 28433 28370 613; G2 XOR 613 16967 28245; G2 XOR 28497 28370 15267; G2 XOR 16966 28370 15266;
  G2 AND 15267 15266 15265; G2 XOR 15265 28370 28371; G2 XOR 28434 28371 612; G2 XOR 612 16968 28246;
  G2 XOR 28498 28371 15264; G2 XOR 16967 28371 15263; G2 AND 15264 15263 15262; G2 XOR 15262 28371 28372;
  G2 XOR 28435 28372 611; G2 XOR 611 16969 28247; G2 XOR 28499 28372 15261; G2 XOR 16968 28372 15260;
  G2 AND 15261 15260 15259; G2 XOR 15259 28372 28373; G2 XOR 28436 28373 610; G2 XOR 610 16970 28248;
  G2 XOR 28500 28373 15258; G2 XOR 16969 28373 15257; G2 AND 15258 15257 15256; G2 XOR 15256 28373 28374;
  G2 XOR 28437 28374 609; G2 XOR 609 16971 28249; G2 XOR 28501 28374 15255; G2 XOR 16970 28374 15254;
  G2 AND 15255 15254 15253; G2 XOR 15253 28374 28375; G2 XOR 28438 28375 608; G2 XOR 608 16972 28250;
  G2 XOR 28502 28375 15252; G2 XOR 16971 28375 15251; G2 AND 15252 15251 15250; G2 XOR 15250 28375 28376;
  G2 XOR 28439 28376 607; G2 XOR 607 16973 28251; G2 XOR 28503 28376 15249; G2 XOR 16972 28376 15248;
  G2 AND 15249 15248 15247; G2 XOR 15247 28376 28377; G2 XOR 28440 28377 606; G2 XOR 606 16974 28252;
  G2 XOR 28504 28377 15246; G2 XOR 16973 28377 15245; G2 AND 15246 15245 15244; G2 XOR 15244 28377 28378;
  G2 XOR 28441 28378 605; G2 XOR 605 16975 28253; G2 XOR 28505 28378 15243; G2 XOR 16974 28378 15242;
  G2 AND 15243 15242 15241; G2 XOR 15241 28378 28379; G2 XOR 28442 28379 604; G2 XOR 604 16976 28254;
  G2 XOR 28506 28379 15240; G2 XOR 16975 28379 15239; G2 AND 15240 15239 15238; G2 XOR 15238 28379 28380;
  G2 XOR 28443 28380 603; G2 XOR 603 16977 28255; G2 XOR 28507 28380 15237; G2 XOR 16976 28380 15236;
  G2 AND 15237 15236 15235; G2 XOR 15235 28380 28381; G2 XOR 28444 28381 602; G2 XOR 602 16978 28256;
  G2 XOR 28508 28381 15234; G2 XOR 16977 28381 15233; G2 AND 15234 15233 15232; G2 XOR 15232 28381 28382;
  G2 XOR 28445 28382 601; G2 XOR 601 16979 28257; G2 XOR 28509 28382 15231; G2 XOR 16978 28382 15230;
  G2 AND 15231 15230 15229; G2 XOR 15229 28382 28383; G2 XOR 28446 28383 600; G2 XOR 600 16980 28258;
  G2 XOR 28510 28383 15228; G2 XOR 16979 28383 15227; G2 AND 15228 15227 15226; G2 XOR 15226 28383 28384;
  G2 XOR 28447 28384 599; G2 XOR 599 16981 28259; G2 XOR 28511 28384 15225; G2 XOR 16980 28384 15224;
  G2 AND 15225 15224 15223; G2 XOR 15223 28384 28385; G2 XOR 28448 28385 598; G2 XOR 598 16982 28260;
  G2 XOR 28512 28385 15222; G2 XOR 16981 28385 15221; G2 AND 15222 15221 15220; G2 XOR 15220 28385 28386;
  G2 XOR 28449 28386 597; G2 XOR 597 16983 28261; G2 XOR 28513 28386 15219; G2 XOR 16982 28386 15218;
  G2 AND 15219 15218 15217; G2 XOR 15217 28386 28387; G2 XOR 28450 28387 596; G2 XOR 596 16984 28262;
  G2 XOR 28514 28387 15216; G2 XOR 16983 28387 15215; G2 AND 15216 15215 15214; G2 XOR 15214 28387 28388;
  G2 XOR 28451 28388 595; G2 XOR 595 16985 28263; G2 XOR 28515 28388 15213; G2 XOR 16984 28388 15212;
  G2 AND 15213 15212 15211; G2 XOR 15211 28388 28389; G2 XOR 28452 28389 594; G2 XOR 594 16986 28264;
  G2 XOR 28516 28389 15210; G2 XOR 16985 28389 15209; G2 AND 15210 15209 15208; G2 XOR 15208 28389 28390;
  G2 XOR 28453 28390 593; G2 XOR 593 16987 28265; G2 XOR 28517 28390 15207; G2 XOR 16986 28390 15206;
  G2 AND 15207 15206 15205; G2 XOR 15205 28390 28391; G2 XOR 28454 28391 592; G2 XOR 592 16988 28266;
  G2 XOR 28518 28391 15204; G2 XOR 16987 28391 15203; G2 AND 15204 15203 15202; G2 XOR 15202 28391 28392;
  G2 XOR 28455 28392 591; G2 XOR 591 16989 28267; G2 XOR 28519 28392 15201; G2 XOR 16988 28392 15200;
  G2 AND 15201 15200 15199; G2 XOR 15199 28392 28393; G2 XOR 28456 28393 590; G2 XOR 590 16990 28268;
  G2 XOR 28520 28393 15198; G2 XOR 16989 28393 15197; G2 AND 15198 15197 15196; G2 XOR 15196 28393 28394;
  G2 XOR 28457 28394 589; G2 XOR 589 16991 28269; G2 XOR 28521 28394 15195; G2 XOR 16990 28394 15194;
  G2 AND 15195 15194 15193; G2 XOR 15193 28394 28395; G2 XOR 28458 28395 588; G2 XOR 588 16992 28270;
  G2 XOR 28522 28395 15192; G2 XOR 16991 28395 15191; G2 AND 15192 15191 15190; G2 XOR 15190 28395 28396;
  G2 XOR 28459 28396 587; G2 XOR 587 16993 28271; G2 XOR 28523 28396 15189; G2 XOR 16992 28396 15188;
  G2 AND 15189 15188 15187; G2 XOR 15187 28396 28397; G2 XOR 28460 28397 586; G2 XOR 586 16994 28272;
  G2 XOR 28524 28397 15186; G2 XOR 16993 28397 15185; G2 AND 15186 15185 15184; G2 XOR 15184 28397 28398;
  G2 XOR 28461 28398 585; G2 XOR 585 16995 28273; G2 XOR 28525 28398 15183; G2 XOR 16994 28398 15182;
  G2 AND 15183 15182 15181; G2 XOR 15181 28398 28399; G2 XOR 28462 28399 584; G2 XOR 584 16996 28274;
  G2 XOR 28526 28399 15180; G2 XOR 16995 28399 15179; G2 AND 15180 15179 15178; G2 XOR 15178 28399 28400;
  G2 XOR 28463 28400 583; G2 XOR 583 16997 28275; G2 XOR 28527 28400 15177; G2 XOR 16996 28400 15176;
  G2 AND 15177 15176 15175; G2 XOR 15175 28400 28401; G2 XOR 28464 28401 582; G2 XOR 582 16998 28276;
  G2 XOR 28528 28401 15174; G2 XOR 16997 28401 15173; G2 AND 15174 15173 15172; G2 XOR 15172 28401 28402;
  G2 XOR 28465 28402 581; G2 XOR 581 16999 28277; G2 XOR 28529 28402 15171; G2 XOR 16998 28402 15170;
  G2 AND 15171 15170 15169; G2 XOR 15169 28402 28403; G2 XOR 28466 28403 580; G2 XOR 580 17000 28278;
  G2 XOR 28530 28403 15168; G2 XOR 16999 28403 15167; G2 AND 15168 15167 15166; G2 XOR 15166 28403 28404;
  G2 XOR 28467 28404 579; G2 XOR 579 17001 28279; G2 XOR 28531 28404 15165; G2 XOR 17000 28404 15164;
  G2 AND 15165 15164 15163; G2 XOR 15163 28404 28405; G2 XOR 28468 28405 578; G2 XOR 578 17002 28280;
  G2 XOR 28532 28405 15162; G2 XOR 17001 28405 15161; G2 AND 15162 15161 15160; G2 XOR 15160 28405 28406;
  G2 XOR 28469 28406 577; G2 XOR 577 17003 28281; G2 XOR 28533 28406 15159; G2 XOR 17002 28406 15158;
  G2 AND 15159 15158 15157; G2 XOR 15157 28406 28407; G2 XOR 28470 28407 576; G2 XOR 576 17004 28282;
  G2 XOR 28534 28407 15156; G2 XOR 17003 28407 15155; G2 AND 15156 15155 15154; G2 XOR 15154 28407 28408;
  G2 XOR 28471 28408 575; G2 XOR 575 17005 28283; G2 XOR 28535 28408 15153; G2 XOR 17004 28408 15152;
  G2 AND 15153 15152 15151; G2 XOR 15151 28408 28409; G2 XOR 28472 28409 574; G2 XOR 574 17006 28284;
  G2 XOR 28536 28409 15150; G2 XOR 17005 28409 15149; G2 AND 15150 15149 15148; G2 XOR 15148 28409 28410;
  G2 XOR 28473 28410 573; G2 XOR 573 17007 28285; G2 XOR 28537 28410 15147; G2 XOR 17006 28410 15146;
  G2 AND 15147 15146 15145; G2 XOR 15145 28410 28411; G2 XOR 28474 28411 572; G2 XOR 572 17008 28286;
  G2 XOR 28538 28411 15144; G2 XOR 17007 28411 15143; G2 AND 15144 15143 15142; G2 XOR 15142 28411 28412;
  G2 XOR 28475 28412 571; G2 XOR 571 17009 28287; G2 XOR 28539 28412 15141; G2 XOR 17008 28412 15140;
  G2 AND 15141 15140 15139; G2 XOR 15139 28412 28413; G2 XOR 28476 28413 136; G1 INV 136 16686;
  G2 XOR 16875 16686 28288; G2 XOR 633 16686 28289; G2 XOR 632 16686 28290; G2 XOR 631 16686 28291;
  G2 XOR 630 16686 28292; G2 XOR 629 16686 28293; G2 XOR 628 16686 28294; G2 XOR 627 16686 28295;
  G2 XOR 626 16686 28296; G2 XOR 625 16686 28297; G2 XOR 624 16686 28298; G2 XOR 623 16686 28299;
  G2 XOR 622 16686 28300; G2 XOR 621 16686 28301; G2 XOR 620 16686 28302; G2 XOR 619 16686 28303;
  G2 XOR 618 16686 28304; G2 XOR 617 16686 28305; G2 XOR 616 16686 28306; G2 XOR 615 16686 28307;
  G2 XOR 614 16686 28308; G2 XOR 613 16686 28309; G2 XOR 612 16686 28310; G2 XOR 611 16686 28311;
  G2 XOR 610 16686 28312; G2 XOR 609 16686 28313; G2 XOR 608 16686 28314; G2 XOR 607 16686 28315;
  G2 XOR 606 16686 28316; G2 XOR 605 16686 28317; G2 XOR 604 16686 28318; G2 XOR 603 16686 28319;
  G2 XOR 602 16686 28320; G2 XOR 601 16686 28321; G2 XOR 600 16686 28322; G2 XOR 599 16686 28323;
  G2 XOR 598 16686 28324; G2 XOR 597 16686 28325; G2 XOR 596 16686 28326; G2 XOR 595 16686 28327;
  G2 XOR 594 16686 28328; G2 XOR 593 16686 28329; G2 XOR 592 16686 28330; G2 XOR 591 16686 28331;
  G2 XOR 590 16686 28332; G2 XOR 589 16686 28333; G2 XOR 588 16686 28334; G2 XOR 587 16686 28335;
  G2 XOR 586 16686 28336; G2 XOR 585 16686 28337; G2 XOR 584 16686 28338; G2 XOR 583 16686 28339;
  G2 XOR 582 16686 28340; G2 XOR 581 16686 28341; G2 XOR 580 16686 28342; G2 XOR 579 16686 28343;
  G2 XOR 578 16686 28344; G2 XOR 577 16686 28345; G2 XOR 576 16686 28346; G2 XOR 575 16686 28347;
  G2 XOR 574 16686 28348; G2 XOR 573 16686 28349; G2 XOR 572 16686 28350; G2 AND 28288 16946 28162;
  G2 XOR 28225 28162 695; G2 XOR 695 16948 28037; G2 XOR 28289 28162 15138; G2 XOR 16947 28162 15137;
  G2 AND 15138 15137 15136; G2 XOR 15136 28162 28163; G2 XOR 28226 28163 694; G2 XOR 694 16949 28038;
  G2 XOR 28290 28163 15135; G2 XOR 16948 28163 15134; G2 AND 15135 15134 15133; G2 XOR 15133 28163 28164;
  G2 XOR 28227 28164 693; G2 XOR 693 16950 28039; G2 XOR 28291 28164 15132; G2 XOR 16949 28164 15131;
  G2 AND 15132 15131 15130; G2 XOR 15130 28164 28165; G2 XOR 28228 28165 692; G2 XOR 692 16951 28040;
  G2 XOR 28292 28165 15129; G2 XOR 16950 28165 15128; G2 AND 15129 15128 15127; G2 XOR 15127 28165 28166;
  G2 XOR 28229 28166 691; G2 XOR 691 16952 28041; G2 XOR 28293 28166 15126; G2 XOR 16951 28166 15125;
  G2 AND 15126 15125 15124; G2 XOR 15124 28166 28167; G2 XOR 28230 28167 690; G2 XOR 690 16953 28042;
  G2 XOR 28294 28167 15123; G2 XOR 16952 28167 15122; G2 AND 15123 15122 15121; G2 XOR 15121 28167 28168;
  G2 XOR 28231 28168 689; G2 XOR 689 16954 28043; G2 XOR 28295 28168 15120; G2 XOR 16953 28168 15119;
  G2 AND 15120 15119 15118; G2 XOR 15118 28168 28169; G2 XOR 28232 28169 688; G2 XOR 688 16955 28044;
  G2 XOR 28296 28169 15117; G2 XOR 16954 28169 15116; G2 AND 15117 15116 15115; G2 XOR 15115 28169 28170;
  G2 XOR 28233 28170 687; G2 XOR 687 16956 28045; G2 XOR 28297 28170 15114; G2 XOR 16955 28170 15113;
  G2 AND 15114 15113 15112; G2 XOR 15112 28170 28171; G2 XOR 28234 28171 686; G2 XOR 686 16957 28046;
  G2 XOR 28298 28171 15111; G2 XOR 16956 28171 15110; G2 AND 15111 15110 15109; G2 XOR 15109 28171 28172;
  G2 XOR 28235 28172 685; G2 XOR 685 16958 28047; G2 XOR 28299 28172 15108; G2 XOR 16957 28172 15107;
  G2 AND 15108 15107 15106; G2 XOR 15106 28172 28173; G2 XOR 28236 28173 684; G2 XOR 684 16959 28048;
  G2 XOR 28300 28173 15105; G2 XOR 16958 28173 15104; G2 AND 15105 15104 15103; G2 XOR 15103 28173 28174;
  G2 XOR 28237 28174 683; G2 XOR 683 16960 28049; G2 XOR 28301 28174 15102; G2 XOR 16959 28174 15101;
  G2 AND 15102 15101 15100; G2 XOR 15100 28174 28175; G2 XOR 28238 28175 682; G2 XOR 682 16961 28050;
  G2 XOR 28302 28175 15099; G2 XOR 16960 28175 15098; G2 AND 15099 15098 15097; G2 XOR 15097 28175 28176;
  G2 XOR 28239 28176 681; G2 XOR 681 16962 28051; G2 XOR 28303 28176 15096; G2 XOR 16961 28176 15095;
  G2 AND 15096 15095 15094; G2 XOR 15094 28176 28177; G2 XOR 28240 28177 680; G2 XOR 680 16963 28052;
  G2 XOR 28304 28177 15093; G2 XOR 16962 28177 15092; G2 AND 15093 15092 15091; G2 XOR 15091 28177 28178;
  G2 XOR 28241 28178 679; G2 XOR 679 16964 28053; G2 XOR 28305 28178 15090; G2 XOR 16963 28178 15089;
  G2 AND 15090 15089 15088; G2 XOR 15088 28178 28179; G2 XOR 28242 28179 678; G2 XOR 678 16965 28054;
  G2 XOR 28306 28179 15087; G2 XOR 16964 28179 15086; G2 AND 15087 15086 15085; G2 XOR 15085 28179 28180;
  G2 XOR 28243 28180 677; G2 XOR 677 16966 28055; G2 XOR 28307 28180 15084; G2 XOR 16965 28180 15083;
  G2 AND 15084 15083 15082; G2 XOR 15082 28180 28181; G2 XOR 28244 28181 676; G2 XOR 676 16967 28056;
  G2 XOR 28308 28181 15081; G2 XOR 16966 28181 15080; G2 AND 15081 15080 15079; G2 XOR 15079 28181 28182;
  G2 XOR 28245 28182 675; G2 XOR 675 16968 28057; G2 XOR 28309 28182 15078; G2 XOR 16967 28182 15077;
  G2 AND 15078 15077 15076; G2 XOR 15076 28182 28183; G2 XOR 28246 28183 674; G2 XOR 674 16969 28058;
  G2 XOR 28310 28183 15075; G2 XOR 16968 28183 15074; G2 AND 15075 15074 15073; G2 XOR 15073 28183 28184;
  G2 XOR 28247 28184 673; G2 XOR 673 16970 28059; G2 XOR 28311 28184 15072; G2 XOR 16969 28184 15071;
  G2 AND 15072 15071 15070; G2 XOR 15070 28184 28185; G2 XOR 28248 28185 672; G2 XOR 672 16971 28060;
  G2 XOR 28312 28185 15069; G2 XOR 16970 28185 15068; G2 AND 15069 15068 15067; G2 XOR 15067 28185 28186;
  G2 XOR 28249 28186 671; G2 XOR 671 16972 28061; G2 XOR 28313 28186 15066; G2 XOR 16971 28186 15065;
  G2 AND 15066 15065 15064; G2 XOR 15064 28186 28187; G2 XOR 28250 28187 670; G2 XOR 670 16973 28062;
  G2 XOR 28314 28187 15063; G2 XOR 16972 28187 15062; G2 AND 15063 15062 15061; G2 XOR 15061 28187 28188;
  G2 XOR 28251 28188 669; G2 XOR 669 16974 28063; G2 XOR 28315 28188 15060; G2 XOR 16973 28188 15059;
  G2 AND 15060 15059 15058; G2 XOR 15058 28188 28189; G2 XOR 28252 28189 668; G2 XOR 668 16975 28064;
  G2 XOR 28316 28189 15057; G2 XOR 16974 28189 15056; G2 AND 15057 15056 15055; G2 XOR 15055 28189 28190;
  G2 XOR 28253 28190 667; G2 XOR 667 16976 28065; G2 XOR 28317 28190 15054; G2 XOR 16975 28190 15053;
  G2 AND 15054 15053 15052; G2 XOR 15052 28190 28191; G2 XOR 28254 28191 666; G2 XOR 666 16977 28066;
  G2 XOR 28318 28191 15051; G2 XOR 16976 28191 15050; G2 AND 15051 15050 15049; G2 XOR 15049 28191 28192;
  G2 XOR 28255 28192 665; G2 XOR 665 16978 28067; G2 XOR 28319 28192 15048; G2 XOR 16977 28192 15047;
  G2 AND 15048 15047 15046; G2 XOR 15046 28192 28193; G2 XOR 28256 28193 664; G2 XOR 664 16979 28068;
  G2 XOR 28320 28193 15045; G2 XOR 16978 28193 15044; G2 AND 15045 15044 15043; G2 XOR 15043 28193 28194;
  G2 XOR 28257 28194 663; G2 XOR 663 16980 28069; G2 XOR 28321 28194 15042; G2 XOR 16979 28194 15041;
  G2 AND 15042 15041 15040; G2 XOR 15040 28194 28195; G2 XOR 28258 28195 662; G2 XOR 662 16981 28070;
  G2 XOR 28322 28195 15039; G2 XOR 16980 28195 15038; G2 AND 15039 15038 15037; G2 XOR 15037 28195 28196;
  G2 XOR 28259 28196 661; G2 XOR 661 16982 28071; G2 XOR 28323 28196 15036; G2 XOR 16981 28196 15035;
  G2 AND 15036 15035 15034; G2 XOR 15034 28196 28197; G2 XOR 28260 28197 660; G2 XOR 660 16983 28072;
  G2 XOR 28324 28197 15033; G2 XOR 16982 28197 15032; G2 AND 15033 15032 15031; G2 XOR 15031 28197 28198;
  G2 XOR 28261 28198 659; G2 XOR 659 16984 28073; G2 XOR 28325 28198 15030; G2 XOR 16983 28198 15029;
  G2 AND 15030 15029 15028; G2 XOR 15028 28198 28199; G2 XOR 28262 28199 658; G2 XOR 658 16985 28074;
  G2 XOR 28326 28199 15027; G2 XOR 16984 28199 15026; G2 AND 15027 15026 15025; G2 XOR 15025 28199 28200;
  G2 XOR 28263 28200 657; G2 XOR 657 16986 28075; G2 XOR 28327 28200 15024; G2 XOR 16985 28200 15023;
  G2 AND 15024 15023 15022; G2 XOR 15022 28200 28201; G2 XOR 28264 28201 656; G2 XOR 656 16987 28076;
  G2 XOR 28328 28201 15021; G2 XOR 16986 28201 15020; G2 AND 15021 15020 15019; G2 XOR 15019 28201 28202;
  G2 XOR 28265 28202 655; G2 XOR 655 16988 28077; G2 XOR 28329 28202 15018; G2 XOR 16987 28202 15017;
  G2 AND 15018 15017 15016; G2 XOR 15016 28202 28203; G2 XOR 28266 28203 654; G2 XOR 654 16989 28078;
  G2 XOR 28330 28203 15015; G2 XOR 16988 28203 15014; G2 AND 15015 15014 15013; G2 XOR 15013 28203 28204;
  G2 XOR 28267 28204 653; G2 XOR 653 16990 28079; G2 XOR 28331 28204 15012; G2 XOR 16989 28204 15011;
  G2 AND 15012 15011 15010; G2 XOR 15010 28204 28205; G2 XOR 28268 28205 652; G2 XOR 652 16991 28080;
  G2 XOR 28332 28205 15009; G2 XOR 16990 28205 15008; G2 AND 15009 15008 15007; G2 XOR 15007 28205 28206;
  G2 XOR 28269 28206 651; G2 XOR 651 16992 28081; G2 XOR 28333 28206 15006; G2 XOR 16991 28206 15005;
  G2 AND 15006 15005 15004; G2 XOR 15004 28206 28207; G2 XOR 28270 28207 650; G2 XOR 650 16993 28082;
  G2 XOR 28334 28207 15003; G2 XOR 16992 28207 15002; G2 AND 15003 15002 15001; G2 XOR 15001 28207 28208;
  G2 XOR 28271 28208 649; G2 XOR 649 16994 28083; G2 XOR 28335 28208 15000; G2 XOR 16993 28208 14999;
  G2 AND 15000 14999 14998; G2 XOR 14998 28208 28209; G2 XOR 28272 28209 648; G2 XOR 648 16995 28084;
  G2 XOR 28336 28209 14997; G2 XOR 16994 28209 14996; G2 AND 14997 14996 14995; G2 XOR 14995 28209 28210;
  G2 XOR 28273 28210 647; G2 XOR 647 16996 28085; G2 XOR 28337 28210 14994; G2 XOR 16995 28210 14993;
  G2 AND 14994 14993 14992; G2 XOR 14992 28210 28211; G2 XOR 28274 28211 646; G2 XOR 646 16997 28086;
  G2 XOR 28338 28211 14991; G2 XOR 16996 28211 14990; G2 AND 14991 14990 14989; G2 XOR 14989 28211 28212;
  G2 XOR 28275 28212 645; G2 XOR 645 16998 28087; G2 XOR 28339 28212 14988; G2 XOR 16997 28212 14987;
  G2 AND 14988 14987 14986; G2 XOR 14986 28212 28213; G2 XOR 28276 28213 644; G2 XOR 644 16999 28088;
  G2 XOR 28340 28213 14985; G2 XOR 16998 28213 14984; G2 AND 14985 14984 14983; G2 XOR 14983 28213 28214;
  G2 XOR 28277 28214 643; G2 XOR 643 17000 28089; G2 XOR 28341 28214 14982; G2 XOR 16999 28214 14981;
  G2 AND 14982 14981 14980; G2 XOR 14980 28214 28215; G2 XOR 28278 28215 642; G2 XOR 642 17001 28090;
  G2 XOR 28342 28215 14979; G2 XOR 17000 28215 14978; G2 AND 14979 14978 14977; G2 XOR 14977 28215 28216;
  G2 XOR 28279 28216 641; G2 XOR 641 17002 28091; G2 XOR 28343 28216 14976; G2 XOR 17001 28216 14975;
  G2 AND 14976 14975 14974; G2 XOR 14974 28216 28217; G2 XOR 28280 28217 640; G2 XOR 640 17003 28092;
  G2 XOR 28344 28217 14973; G2 XOR 17002 28217 14972; G2 AND 14973 14972 14971; G2 XOR 14971 28217 28218;
  G2 XOR 28281 28218 639; G2 XOR 639 17004 28093; G2 XOR 28345 28218 14970; G2 XOR 17003 28218 14969;
  G2 AND 14970 14969 14968; G2 XOR 14968 28218 28219; G2 XOR 28282 28219 638; G2 XOR 638 17005 28094;
  G2 XOR 28346 28219 14967; G2 XOR 17004 28219 14966; G2 AND 14967 14966 14965; G2 XOR 14965 28219 28220;
  G2 XOR 28283 28220 637; G2 XOR 637 17006 28095; G2 XOR 28347 28220 14964; G2 XOR 17005 28220 14963;
  G2 AND 14964 14963 14962; G2 XOR 14962 28220 28221; G2 XOR 28284 28221 636; G2 XOR 636 17007 28096;
  G2 XOR 28348 28221 14961; G2 XOR 17006 28221 14960; G2 AND 14961 14960 14959; G2 XOR 14959 28221 28222;
  G2 XOR 28285 28222 635; G2 XOR 635 17008 28097; G2 XOR 28349 28222 14958; G2 XOR 17007 28222 14957;
  G2 AND 14958 14957 14956; G2 XOR 14956 28222 28223; G2 XOR 28286 28223 634; G2 XOR 634 17009 28098;
  G2 XOR 28350 28223 14955; G2 XOR 17008 28223 14954; G2 AND 14955 14954 14953; G2 XOR 14953 28223 28224;
  G2 XOR 28287 28224 137; G2 AND 16686 4535 17570; G1 INV 137 16685; G2 XOR 16874 16685 28099;
  G2 XOR 696 16685 28100; G2 XOR 695 16685 28101; G2 XOR 694 16685 28102; G2 XOR 693 16685 28103;
  G2 XOR 692 16685 28104; G2 XOR 691 16685 28105; G2 XOR 690 16685 28106; G2 XOR 689 16685 28107;
  G2 XOR 688 16685 28108; G2 XOR 687 16685 28109; G2 XOR 686 16685 28110; G2 XOR 685 16685 28111;
  G2 XOR 684 16685 28112; G2 XOR 683 16685 28113; G2 XOR 682 16685 28114; G2 XOR 681 16685 28115;
  G2 XOR 680 16685 28116; G2 XOR 679 16685 28117; G2 XOR 678 16685 28118; G2 XOR 677 16685 28119;
  G2 XOR 676 16685 28120; G2 XOR 675 16685 28121; G2 XOR 674 16685 28122; G2 XOR 673 16685 28123;
  G2 XOR 672 16685 28124; G2 XOR 671 16685 28125; G2 XOR 670 16685 28126; G2 XOR 669 16685 28127;
  G2 XOR 668 16685 28128; G2 XOR 667 16685 28129; G2 XOR 666 16685 28130; G2 XOR 665 16685 28131;
  G2 XOR 664 16685 28132; G2 XOR 663 16685 28133; G2 XOR 662 16685 28134; G2 XOR 661 16685 28135;
  G2 XOR 660 16685 28136; G2 XOR 659 16685 28137; G2 XOR 658 16685 28138; G2 XOR 657 16685 28139;
  G2 XOR 656 16685 28140; G2 XOR 655 16685 28141; G2 XOR 654 16685 28142; G2 XOR 653 16685 28143;
  G2 XOR 652 16685 28144; G2 XOR 651 16685 28145; G2 XOR 650 16685 28146; G2 XOR 649 16685 28147;
  G2 XOR 648 16685 28148; G2 XOR 647 16685 28149; G2 XOR 646 16685 28150; G2 XOR 645 16685 28151;
  G2 XOR 644 16685 28152; G2 XOR 643 16685 28153; G2 XOR 642 16685 28154; G2 XOR 641 16685 28155;
  G2 XOR 640 16685 28156; G2 XOR 639 16685 28157; G2 XOR 638 16685 28158; G2 XOR 637 16685 28159;
  G2 XOR 636 16685 28160; G2 XOR 635 16685 28161; G2 AND 28099 16946 27973; G2 XOR 28036 27973 758;
  G2 XOR 758 16948 27848; G2 XOR 28100 27973 14952; G2 XOR 16947 27973 14951; G2 AND 14952 14951 14950;
  G2 XOR 14950 27973 27974; G2 XOR 28037 27974 757; G2 XOR 757 16949 27849; G2 XOR 28101 27974 14949;
  G2 XOR 16948 27974 14948; G2 AND 14949 14948 14947; G2 XOR 14947 27974 27975; G2 XOR 28038 27975 756;
  G2 XOR 756 16950 27850; G2 XOR 28102 27975 14946; G2 XOR 16949 27975 14945; G2 AND 14946 14945 14944;
  G2 XOR 14944 27975 27976; G2 XOR 28039 27976 755; G2 XOR 755 16951 27851; G2 XOR 28103 27976 14943;
  G2 XOR 16950 27976 14942; G2 AND 14943 14942 14941; G2 XOR 14941 27976 27977; G2 XOR 28040 27977 754;
  G2 XOR 754 16952 27852; G2 XOR 28104 27977 14940; G2 XOR 16951 27977 14939; G2 AND 14940 14939 14938;
  G2 XOR 14938 27977 27978; G2 XOR 28041 27978 753; G2 XOR 753 16953 27853; G2 XOR 28105 27978 14937;
  G2 XOR 16952 27978 14936; G2 AND 14937 14936 14935; G2 XOR 14935 27978 27979; G2 XOR 28042 27979 752;
  G2 XOR 752 16954 27854; G2 XOR 28106 27979 14934; G2 XOR 16953 27979 14933; G2 AND 14934 14933 14932;
  G2 XOR 14932 27979 27980; G2 XOR 28043 27980 751; G2 XOR 751 16955 27855; G2 XOR 28107 27980 14931;
  G2 XOR 16954 27980 14930; G2 AND 14931 14930 14929; G2 XOR 14929 27980 27981; G2 XOR 28044 27981 750;
  G2 XOR 750 16956 27856; G2 XOR 28108 27981 14928; G2 XOR 16955 27981 14927; G2 AND 14928 14927 14926;
  G2 XOR 14926 27981 27982; G2 XOR 28045 27982 749; G2 XOR 749 16957 27857; G2 XOR 28109 27982 14925;
  G2 XOR 16956 27982 14924; G2 AND 14925 14924 14923; G2 XOR 14923 27982 27983; G2 XOR 28046 27983 748;
  G2 XOR 748 16958 27858; G2 XOR 28110 27983 14922; G2 XOR 16957 27983 14921; G2 AND 14922 14921 14920;
  G2 XOR 14920 27983 27984; G2 XOR 28047 27984 747; G2 XOR 747 16959 27859; G2 XOR 28111 27984 14919;
  G2 XOR 16958 27984 14918; G2 AND 14919 14918 14917; G2 XOR 14917 27984 27985; G2 XOR 28048 27985 746;
  G2 XOR 746 16960 27860; G2 XOR 28112 27985 14916; G2 XOR 16959 27985 14915; G2 AND 14916 14915 14914;
  G2 XOR 14914 27985 27986; G2 XOR 28049 27986 745; G2 XOR 745 16961 27861; G2 XOR 28113 27986 14913;
  G2 XOR 16960 27986 14912; G2 AND 14913 14912 14911; G2 XOR 14911 27986 27987; G2 XOR 28050 27987 744;
  G2 XOR 744 16962 27862; G2 XOR 28114 27987 14910; G2 XOR 16961 27987 14909; G2 AND 14910 14909 14908;
  G2 XOR 14908 27987 27988; G2 XOR 28051 27988 743; G2 XOR 743 16963 27863; G2 XOR 28115 27988 14907;
  G2 XOR 16962 27988 14906; G2 AND 14907 14906 14905; G2 XOR 14905 27988 27989; G2 XOR 28052 27989 742;
  G2 XOR 742 16964 27864; G2 XOR 28116 27989 14904; G2 XOR 16963 27989 14903; G2 AND 14904 14903 14902;
  G2 XOR 14902 27989 27990; G2 XOR 28053 27990 741; G2 XOR 741 16965 27865; G2 XOR 28117 27990 14901;
  G2 XOR 16964 27990 14900; G2 AND 14901 14900 14899; G2 XOR 14899 27990 27991; G2 XOR 28054 27991 740;
  G2 XOR 740 16966 27866; G2 XOR 28118 27991 14898; G2 XOR 16965 27991 14897; G2 AND 14898 14897 14896;
  G2 XOR 14896 27991 27992; G2 XOR 28055 27992 739; G2 XOR 739 16967 27867; G2 XOR 28119 27992 14895;
  G2 XOR 16966 27992 14894; G2 AND 14895 14894 14893; G2 XOR 14893 27992 27993; G2 XOR 28056 27993 738;
  G2 XOR 738 16968 27868; G2 XOR 28120 27993 14892; G2 XOR 16967 27993 14891; G2 AND 14892 14891 14890;
  G2 XOR 14890 27993 27994; G2 XOR 28057 27994 737; G2 XOR 737 16969 27869; G2 XOR 28121 27994 14889;
  G2 XOR 16968 27994 14888; G2 AND 14889 14888 14887; G2 XOR 14887 27994 27995; G2 XOR 28058 27995 736;
  G2 XOR 736 16970 27870; G2 XOR 28122 27995 14886; G2 XOR 16969 27995 14885; G2 AND 14886 14885 14884;
  G2 XOR 14884 27995 27996; G2 XOR 28059 27996 735; G2 XOR 735 16971 27871; G2 XOR 28123 27996 14883;
  G2 XOR 16970 27996 14882; G2 AND 14883 14882 14881; G2 XOR 14881 27996 27997; G2 XOR 28060 27997 734;
  G2 XOR 734 16972 27872; G2 XOR 28124 27997 14880; G2 XOR 16971 27997 14879; G2 AND 14880 14879 14878;
  G2 XOR 14878 27997 27998; G2 XOR 28061 27998 733; G2 XOR 733 16973 27873; G2 XOR 28125 27998 14877;
  G2 XOR 16972 27998 14876; G2 AND 14877 14876 14875; G2 XOR 14875 27998 27999; G2 XOR 28062 27999 732;
  G2 XOR 732 16974 27874; G2 XOR 28126 27999 14874; G2 XOR 16973 27999 14873; G2 AND 14874 14873 14872;
  G2 XOR 14872 27999 28000; G2 XOR 28063 28000 731; G2 XOR 731 16975 27875; G2 XOR 28127 28000 14871;
  G2 XOR 16974 28000 14870; G2 AND 14871 14870 14869; G2 XOR 14869 28000 28001; G2 XOR 28064 28001 730;
  G2 XOR 730 16976 27876; G2 XOR 28128 28001 14868; G2 XOR 16975 28001 14867; G2 AND 14868 14867 14866;
  G2 XOR 14866 28001 28002; G2 XOR 28065 28002 729; G2 XOR 729 16977 27877; G2 XOR 28129 28002 14865;
  G2 XOR 16976 28002 14864; G2 AND 14865 14864 14863; G2 XOR 14863 28002 28003; G2 XOR 28066 28003 728;
  G2 XOR 728 16978 27878; G2 XOR 28130 28003 14862; G2 XOR 16977 28003 14861; G2 AND 14862 14861 14860;
  G2 XOR 14860 28003 28004; G2 XOR 28067 28004 727; G2 XOR 727 16979 27879; G2 XOR 28131 28004 14859;
  G2 XOR 16978 28004 14858; G2 AND 14859 14858 14857; G2 XOR 14857 28004 28005; G2 XOR 28068 28005 726;
  G2 XOR 726 16980 27880; G2 XOR 28132 28005 14856; G2 XOR 16979 28005 14855; G2 AND 14856 14855 14854;
  G2 XOR 14854 28005 28006; G2 XOR 28069 28006 725; G2 XOR 725 16981 27881; G2 XOR 28133 28006 14853;
  G2 XOR 16980 28006 14852; G2 AND 14853 14852 14851; G2 XOR 14851 28006 28007; G2 XOR 28070 28007 724;
  G2 XOR 724 16982 27882; G2 XOR 28134 28007 14850; G2 XOR 16981 28007 14849; G2 AND 14850 14849 14848;
  G2 XOR 14848 28007 28008; G2 XOR 28071 28008 723; G2 XOR 723 16983 27883; G2 XOR 28135 28008 14847;
  G2 XOR 16982 28008 14846; G2 AND 14847 14846 14845; G2 XOR 14845 28008 28009; G2 XOR 28072 28009 722;
  G2 XOR 722 16984 27884; G2 XOR 28136 28009 14844; G2 XOR 16983 28009 14843; G2 AND 14844 14843 14842;
  G2 XOR 14842 28009 28010; G2 XOR 28073 28010 721; G2 XOR 721 16985 27885; G2 XOR 28137 28010 14841;
  G2 XOR 16984 28010 14840; G2 AND 14841 14840 14839; G2 XOR 14839 28010 28011; G2 XOR 28074 28011 720;
  G2 XOR 720 16986 27886; G2 XOR 28138 28011 14838; G2 XOR 16985 28011 14837; G2 AND 14838 14837 14836;
  G2 XOR 14836 28011 28012; G2 XOR 28075 28012 719; G2 XOR 719 16987 27887; G2 XOR 28139 28012 14835;
  G2 XOR 16986 28012 14834; G2 AND 14835 14834 14833; G2 XOR 14833 28012 28013; G2 XOR 28076 28013 718;
  G2 XOR 718 16988 27888; G2 XOR 28140 28013 14832; G2 XOR 16987 28013 14831; G2 AND 14832 14831 14830;
  G2 XOR 14830 28013 28014; G2 XOR 28077 28014 717; G2 XOR 717 16989 27889; G2 XOR 28141 28014 14829;
  G2 XOR 16988 28014 14828; G2 AND 14829 14828 14827; G2 XOR 14827 28014 28015; G2 XOR 28078 28015 716;
  G2 XOR 716 16990 27890; G2 XOR 28142 28015 14826; G2 XOR 16989 28015 14825; G2 AND 14826 14825 14824;
  G2 XOR 14824 28015 28016; G2 XOR 28079 28016 715; G2 XOR 715 16991 27891; G2 XOR 28143 28016 14823;
  G2 XOR 16990 28016 14822; G2 AND 14823 14822 14821; G2 XOR 14821 28016 28017; G2 XOR 28080 28017 714;
  G2 XOR 714 16992 27892; G2 XOR 28144 28017 14820; G2 XOR 16991 28017 14819; G2 AND 14820 14819 14818;
  G2 XOR 14818 28017 28018; G2 XOR 28081 28018 713; G2 XOR 713 16993 27893; G2 XOR 28145 28018 14817;
  G2 XOR 16992 28018 14816; G2 AND 14817 14816 14815; G2 XOR 14815 28018 28019; G2 XOR 28082 28019 712;
  G2 XOR 712 16994 27894; G2 XOR 28146 28019 14814; G2 XOR 16993 28019 14813; G2 AND 14814 14813 14812;
  G2 XOR 14812 28019 28020; G2 XOR 28083 28020 711; G2 XOR 711 16995 27895; G2 XOR 28147 28020 14811;
  G2 XOR 16994 28020 14810; G2 AND 14811 14810 14809; G2 XOR 14809 28020 28021; G2 XOR 28084 28021 710;
  G2 XOR 710 16996 27896; G2 XOR 28148 28021 14808; G2 XOR 16995 28021 14807; G2 AND 14808 14807 14806;
  G2 XOR 14806 28021 28022; G2 XOR 28085 28022 709; G2 XOR 709 16997 27897; G2 XOR 28149 28022 14805;
  G2 XOR 16996 28022 14804; G2 AND 14805 14804 14803; G2 XOR 14803 28022 28023; G2 XOR 28086 28023 708;
  G2 XOR 708 16998 27898; G2 XOR 28150 28023 14802; G2 XOR 16997 28023 14801; G2 AND 14802 14801 14800;
  G2 XOR 14800 28023 28024; G2 XOR 28087 28024 707; G2 XOR 707 16999 27899; G2 XOR 28151 28024 14799;
  G2 XOR 16998 28024 14798; G2 AND 14799 14798 14797; G2 XOR 14797 28024 28025; G2 XOR 28088 28025 706;
  G2 XOR 706 17000 27900; G2 XOR 28152 28025 14796; G2 XOR 16999 28025 14795; G2 AND 14796 14795 14794;
  G2 XOR 14794 28025 28026; G2 XOR 28089 28026 705; G2 XOR 705 17001 27901; G2 XOR 28153 28026 14793;
  G2 XOR 17000 28026 14792; G2 AND 14793 14792 14791; G2 XOR 14791 28026 28027; G2 XOR 28090 28027 704;
  G2 XOR 704 17002 27902; G2 XOR 28154 28027 14790; G2 XOR 17001 28027 14789; G2 AND 14790 14789 14788;
  G2 XOR 14788 28027 28028; G2 XOR 28091 28028 703; G2 XOR 703 17003 27903; G2 XOR 28155 28028 14787;
  G2 XOR 17002 28028 14786; G2 AND 14787 14786 14785; G2 XOR 14785 28028 28029; G2 XOR 28092 28029 702;
  G2 XOR 702 17004 27904; G2 XOR 28156 28029 14784; G2 XOR 17003 28029 14783; G2 AND 14784 14783 14782;
  G2 XOR 14782 28029 28030; G2 XOR 28093 28030 701; G2 XOR 701 17005 27905; G2 XOR 28157 28030 14781;
  G2 XOR 17004 28030 14780; G2 AND 14781 14780 14779; G2 XOR 14779 28030 28031; G2 XOR 28094 28031 700;
  G2 XOR 700 17006 27906; G2 XOR 28158 28031 14778; G2 XOR 17005 28031 14777; G2 AND 14778 14777 14776;
  G2 XOR 14776 28031 28032; G2 XOR 28095 28032 699; G2 XOR 699 17007 27907; G2 XOR 28159 28032 14775;
  G2 XOR 17006 28032 14774; G2 AND 14775 14774 14773; G2 XOR 14773 28032 28033; G2 XOR 28096 28033 698;
  G2 XOR 698 17008 27908; G2 XOR 28160 28033 14772; G2 XOR 17007 28033 14771; G2 AND 14772 14771 14770;
  G2 XOR 14770 28033 28034; G2 XOR 28097 28034 697; G2 XOR 697 17009 27909; G2 XOR 28161 28034 14769;
  G2 XOR 17008 28034 14768; G2 AND 14769 14768 14767; G2 XOR 14767 28034 28035; G2 XOR 28098 28035 138;
  G1 INV 138 16684; G2 XOR 16873 16684 27910; G2 XOR 759 16684 27911; G2 XOR 758 16684 27912;
  G2 XOR 757 16684 27913; G2 XOR 756 16684 27914; G2 XOR 755 16684 27915; G2 XOR 754 16684 27916;
  G2 XOR 753 16684 27917; G2 XOR 752 16684 27918; G2 XOR 751 16684 27919; G2 XOR 750 16684 27920;
  G2 XOR 749 16684 27921; G2 XOR 748 16684 27922; G2 XOR 747 16684 27923; G2 XOR 746 16684 27924;
  G2 XOR 745 16684 27925; G2 XOR 744 16684 27926; G2 XOR 743 16684 27927; G2 XOR 742 16684 27928;
  G2 XOR 741 16684 27929; G2 XOR 740 16684 27930; G2 XOR 739 16684 27931; G2 XOR 738 16684 27932;
  G2 XOR 737 16684 27933; G2 XOR 736 16684 27934; G2 XOR 735 16684 27935; G2 XOR 734 16684 27936;
  G2 XOR 733 16684 27937; G2 XOR 732 16684 27938; G2 XOR 731 16684 27939; G2 XOR 730 16684 27940;
  G2 XOR 729 16684 27941; G2 XOR 728 16684 27942; G2 XOR 727 16684 27943; G2 XOR 726 16684 27944;
  G2 XOR 725 16684 27945; G2 XOR 724 16684 27946; G2 XOR 723 16684 27947; G2 XOR 722 16684 27948;
  G2 XOR 721 16684 27949; G2 XOR 720 16684 27950; G2 XOR 719 16684 27951; G2 XOR 718 16684 27952;
  G2 XOR 717 16684 27953; G2 XOR 716 16684 27954; G2 XOR 715 16684 27955; G2 XOR 714 16684 27956;
  G2 XOR 713 16684 27957; G2 XOR 712 16684 27958; G2 XOR 711 16684 27959; G2 XOR 710 16684 27960;
  G2 XOR 709 16684 27961; G2 XOR 708 16684 27962; G2 XOR 707 16684 27963; G2 XOR 706 16684 27964;
  G2 XOR 705 16684 27965; G2 XOR 704 16684 27966; G2 XOR 703 16684 27967; G2 XOR 702 16684 27968;
  G2 XOR 701 16684 27969; G2 XOR 700 16684 27970; G2 XOR 699 16684 27971; G2 XOR 698 16684 27972;
  G2 AND 27910 16946 27784; G2 XOR 27847 27784 821; G2 XOR 821 16948 27659; G2 XOR 27911 27784 14766;
  G2 XOR 16947 27784 14765; G2 AND 14766 14765 14764; G2 XOR 14764 27784 27785; G2 XOR 27848 27785 820;
  G2 XOR 820 16949 27660; G2 XOR 27912 27785 14763; G2 XOR 16948 27785 14762; G2 AND 14763 14762 14761;
  G2 XOR 14761 27785 27786; G2 XOR 27849 27786 819; G2 XOR 819 16950 27661; G2 XOR 27913 27786 14760;
  G2 XOR 16949 27786 14759; G2 AND 14760 14759 14758; G2 XOR 14758 27786 27787; G2 XOR 27850 27787 818;
  G2 XOR 818 16951 27662; G2 XOR 27914 27787 14757; G2 XOR 16950 27787 14756; G2 AND 14757 14756 14755;
  G2 XOR 14755 27787 27788; G2 XOR 27851 27788 817; G2 XOR 817 16952 27663; G2 XOR 27915 27788 14754;
  G2 XOR 16951 27788 14753; G2 AND 14754 14753 14752; G2 XOR 14752 27788 27789; G2 XOR 27852 27789 816;
  G2 XOR 816 16953 27664; G2 XOR 27916 27789 14751; G2 XOR 16952 27789 14750; G2 AND 14751 14750 14749;
  G2 XOR 14749 27789 27790; G2 XOR 27853 27790 815; G2 XOR 815 16954 27665; G2 XOR 27917 27790 14748;
  G2 XOR 16953 27790 14747; G2 AND 14748 14747 14746; G2 XOR 14746 27790 27791; G2 XOR 27854 27791 814;
  G2 XOR 814 16955 27666; G2 XOR 27918 27791 14745; G2 XOR 16954 27791 14744; G2 AND 14745 14744 14743;
  G2 XOR 14743 27791 27792; G2 XOR 27855 27792 813; G2 XOR 813 16956 27667; G2 XOR 27919 27792 14742;
  G2 XOR 16955 27792 14741; G2 AND 14742 14741 14740; G2 XOR 14740 27792 27793; G2 XOR 27856 27793 812;
  G2 XOR 812 16957 27668; G2 XOR 27920 27793 14739; G2 XOR 16956 27793 14738; G2 AND 14739 14738 14737;
  G2 XOR 14737 27793 27794; G2 XOR 27857 27794 811; G2 XOR 811 16958 27669; G2 XOR 27921 27794 14736;
  G2 XOR 16957 27794 14735; G2 AND 14736 14735 14734; G2 XOR 14734 27794 27795; G2 XOR 27858 27795 810;
  G2 XOR 810 16959 27670; G2 XOR 27922 27795 14733; G2 XOR 16958 27795 14732; G2 AND 14733 14732 14731;
  G2 XOR 14731 27795 27796; G2 XOR 27859 27796 809; G2 XOR 809 16960 27671; G2 XOR 27923 27796 14730;
  G2 XOR 16959 27796 14729; G2 AND 14730 14729 14728; G2 XOR 14728 27796 27797; G2 XOR 27860 27797 808;
  G2 XOR 808 16961 27672; G2 XOR 27924 27797 14727; G2 XOR 16960 27797 14726; G2 AND 14727 14726 14725;
  G2 XOR 14725 27797 27798; G2 XOR 27861 27798 807; G2 XOR 807 16962 27673; G2 XOR 27925 27798 14724;
  G2 XOR 16961 27798 14723; G2 AND 14724 14723 14722; G2 XOR 14722 27798 27799; G2 XOR 27862 27799 806;
  G2 XOR 806 16963 27674; G2 XOR 27926 27799 14721; G2 XOR 16962 27799 14720; G2 AND 14721 14720 14719;
  G2 XOR 14719 27799 27800; G2 XOR 27863 27800 805; G2 XOR 805 16964 27675; G2 XOR 27927 27800 14718;
  G2 XOR 16963 27800 14717; G2 AND 14718 14717 14716; G2 XOR 14716 27800 27801; G2 XOR 27864 27801 804;
  G2 XOR 804 16965 27676; G2 XOR 27928 27801 14715; G2 XOR 16964 27801 14714; G2 AND 14715 14714 14713;
  G2 XOR 14713 27801 27802; G2 XOR 27865 27802 803; G2 XOR 803 16966 27677; G2 XOR 27929 27802 14712;
  G2 XOR 16965 27802 14711; G2 AND 14712 14711 14710; G2 XOR 14710 27802 27803; G2 XOR 27866 27803 802;
  G2 XOR 802 16967 27678; G2 XOR 27930 27803 14709; G2 XOR 16966 27803 14708; G2 AND 14709 14708 14707;
  G2 XOR 14707 27803 27804; G2 XOR 27867 27804 801; G2 XOR 801 16968 27679; G2 XOR 27931 27804 14706;
  G2 XOR 16967 27804 14705; G2 AND 14706 14705 14704; G2 XOR 14704 27804 27805; G2 XOR 27868 27805 800;
  G2 XOR 800 16969 27680; G2 XOR 27932 27805 14703; G2 XOR 16968 27805 14702; G2 AND 14703 14702 14701;
  G2 XOR 14701 27805 27806; G2 XOR 27869 27806 799; G2 XOR 799 16970 27681; G2 XOR 27933 27806 14700;
  G2 XOR 16969 27806 14699; G2 AND 14700 14699 14698; G2 XOR 14698 27806 27807; G2 XOR 27870 27807 798;
  G2 XOR 798 16971 27682; G2 XOR 27934 27807 14697; G2 XOR 16970 27807 14696; G2 AND 14697 14696 14695;
  G2 XOR 14695 27807 27808; G2 XOR 27871 27808 797; G2 XOR 797 16972 27683; G2 XOR 27935 27808 14694;
  G2 XOR 16971 27808 14693; G2 AND 14694 14693 14692; G2 XOR 14692 27808 27809; G2 XOR 27872 27809 796;
  G2 XOR 796 16973 27684; G2 XOR 27936 27809 14691; G2 XOR 16972 27809 14690; G2 AND 14691 14690 14689;
  G2 XOR 14689 27809 27810; G2 XOR 27873 27810 795; G2 XOR 795 16974 27685; G2 XOR 27937 27810 14688;
  G2 XOR 16973 27810 14687; G2 AND 14688 14687 14686; G2 XOR 14686 27810 27811; G2 XOR 27874 27811 794;
  G2 XOR 794 16975 27686; G2 XOR 27938 27811 14685; G2 XOR 16974 27811 14684; G2 AND 14685 14684 14683;
  G2 XOR 14683 27811 27812; G2 XOR 27875 27812 793; G2 XOR 793 16976 27687; G2 XOR 27939 27812 14682;
  G2 XOR 16975 27812 14681; G2 AND 14682 14681 14680; G2 XOR 14680 27812 27813; G2 XOR 27876 27813 792;
  G2 XOR 792 16977 27688; G2 XOR 27940 27813 14679; G2 XOR 16976 27813 14678; G2 AND 14679 14678 14677;
  G2 XOR 14677 27813 27814; G2 XOR 27877 27814 791; G2 XOR 791 16978 27689; G2 XOR 27941 27814 14676;
  G2 XOR 16977 27814 14675; G2 AND 14676 14675 14674; G2 XOR 14674 27814 27815; G2 XOR 27878 27815 790;
  G2 XOR 790 16979 27690; G2 XOR 27942 27815 14673; G2 XOR 16978 27815 14672; G2 AND 14673 14672 14671;
  G2 XOR 14671 27815 27816; G2 XOR 27879 27816 789; G2 XOR 789 16980 27691; G2 XOR 27943 27816 14670;
  G2 XOR 16979 27816 14669; G2 AND 14670 14669 14668; G2 XOR 14668 27816 27817; G2 XOR 27880 27817 788;
  G2 XOR 788 16981 27692; G2 XOR 27944 27817 14667; G2 XOR 16980 27817 14666; G2 AND 14667 14666 14665;
  G2 XOR 14665 27817 27818; G2 XOR 27881 27818 787; G2 XOR 787 16982 27693; G2 XOR 27945 27818 14664;
  G2 XOR 16981 27818 14663; G2 AND 14664 14663 14662; G2 XOR 14662 27818 27819; G2 XOR 27882 27819 786;
  G2 XOR 786 16983 27694; G2 XOR 27946 27819 14661; G2 XOR 16982 27819 14660; G2 AND 14661 14660 14659;
  G2 XOR 14659 27819 27820; G2 XOR 27883 27820 785; G2 XOR 785 16984 27695; G2 XOR 27947 27820 14658;
  G2 XOR 16983 27820 14657; G2 AND 14658 14657 14656; G2 XOR 14656 27820 27821; G2 XOR 27884 27821 784;
  G2 XOR 784 16985 27696; G2 XOR 27948 27821 14655; G2 XOR 16984 27821 14654; G2 AND 14655 14654 14653;
  G2 XOR 14653 27821 27822; G2 XOR 27885 27822 783; G2 XOR 783 16986 27697; G2 XOR 27949 27822 14652;
  G2 XOR 16985 27822 14651; G2 AND 14652 14651 14650; G2 XOR 14650 27822 27823; G2 XOR 27886 27823 782;
  G2 XOR 782 16987 27698; G2 XOR 27950 27823 14649; G2 XOR 16986 27823 14648; G2 AND 14649 14648 14647;
  G2 XOR 14647 27823 27824; G2 XOR 27887 27824 781; G2 XOR 781 16988 27699; G2 XOR 27951 27824 14646;
  G2 XOR 16987 27824 14645; G2 AND 14646 14645 14644; G2 XOR 14644 27824 27825; G2 XOR 27888 27825 780;
  G2 XOR 780 16989 27700; G2 XOR 27952 27825 14643; G2 XOR 16988 27825 14642; G2 AND 14643 14642 14641;
  G2 XOR 14641 27825 27826; G2 XOR 27889 27826 779; G2 XOR 779 16990 27701; G2 XOR 27953 27826 14640;
  G2 XOR 16989 27826 14639; G2 AND 14640 14639 14638; G2 XOR 14638 27826 27827; G2 XOR 27890 27827 778;
  G2 XOR 778 16991 27702; G2 XOR 27954 27827 14637; G2 XOR 16990 27827 14636; G2 AND 14637 14636 14635;
  G2 XOR 14635 27827 27828; G2 XOR 27891 27828 777; G2 XOR 777 16992 27703; G2 XOR 27955 27828 14634;
  G2 XOR 16991 27828 14633; G2 AND 14634 14633 14632; G2 XOR 14632 27828 27829; G2 XOR 27892 27829 776;
  G2 XOR 776 16993 27704; G2 XOR 27956 27829 14631; G2 XOR 16992 27829 14630; G2 AND 14631 14630 14629;
  G2 XOR 14629 27829 27830; G2 XOR 27893 27830 775; G2 XOR 775 16994 27705; G2 XOR 27957 27830 14628;
  G2 XOR 16993 27830 14627; G2 AND 14628 14627 14626; G2 XOR 14626 27830 27831; G2 XOR 27894 27831 774;
  G2 XOR 774 16995 27706; G2 XOR 27958 27831 14625; G2 XOR 16994 27831 14624; G2 AND 14625 14624 14623;
  G2 XOR 14623 27831 27832; G2 XOR 27895 27832 773; G2 XOR 773 16996 27707; G2 XOR 27959 27832 14622;
  G2 XOR 16995 27832 14621; G2 AND 14622 14621 14620; G2 XOR 14620 27832 27833; G2 XOR 27896 27833 772;
  G2 XOR 772 16997 27708; G2 XOR 27960 27833 14619; G2 XOR 16996 27833 14618; G2 AND 14619 14618 14617;
  G2 XOR 14617 27833 27834; G2 XOR 27897 27834 771; G2 XOR 771 16998 27709; G2 XOR 27961 27834 14616;
  G2 XOR 16997 27834 14615; G2 AND 14616 14615 14614; G2 XOR 14614 27834 27835; G2 XOR 27898 27835 770;
  G2 XOR 770 16999 27710; G2 XOR 27962 27835 14613; G2 XOR 16998 27835 14612; G2 AND 14613 14612 14611;
  G2 XOR 14611 27835 27836; G2 XOR 27899 27836 769; G2 XOR 769 17000 27711; G2 XOR 27963 27836 14610;
  G2 XOR 16999 27836 14609; G2 AND 14610 14609 14608; G2 XOR 14608 27836 27837; G2 XOR 27900 27837 768;
  G2 XOR 768 17001 27712; G2 XOR 27964 27837 14607; G2 XOR 17000 27837 14606; G2 AND 14607 14606 14605;
  G2 XOR 14605 27837 27838; G2 XOR 27901 27838 767; G2 XOR 767 17002 27713; G2 XOR 27965 27838 14604;
  G2 XOR 17001 27838 14603; G2 AND 14604 14603 14602; G2 XOR 14602 27838 27839; G2 XOR 27902 27839 766;
  G2 XOR 766 17003 27714; G2 XOR 27966 27839 14601; G2 XOR 17002 27839 14600; G2 AND 14601 14600 14599;
  G2 XOR 14599 27839 27840; G2 XOR 27903 27840 765; G2 XOR 765 17004 27715; G2 XOR 27967 27840 14598;
  G2 XOR 17003 27840 14597; G2 AND 14598 14597 14596; G2 XOR 14596 27840 27841; G2 XOR 27904 27841 764;
  G2 XOR 764 17005 27716; G2 XOR 27968 27841 14595; G2 XOR 17004 27841 14594; G2 AND 14595 14594 14593;
  G2 XOR 14593 27841 27842; G2 XOR 27905 27842 763; G2 XOR 763 17006 27717; G2 XOR 27969 27842 14592;
  G2 XOR 17005 27842 14591; G2 AND 14592 14591 14590; G2 XOR 14590 27842 27843; G2 XOR 27906 27843 762;
  G2 XOR 762 17007 27718; G2 XOR 27970 27843 14589; G2 XOR 17006 27843 14588; G2 AND 14589 14588 14587;
  G2 XOR 14587 27843 27844; G2 XOR 27907 27844 761; G2 XOR 761 17008 27719; G2 XOR 27971 27844 14586;
  G2 XOR 17007 27844 14585; G2 AND 14586 14585 14584; G2 XOR 14584 27844 27845; G2 XOR 27908 27845 760;
  G2 XOR 760 17009 27720; G2 XOR 27972 27845 14583; G2 XOR 17008 27845 14582; G2 AND 14583 14582 14581;
  G2 XOR 14581 27845 27846; G2 XOR 27909 27846 139; G2 AND 16684 4535 17568; G1 INV 139 16683;
  G2 XOR 16872 16683 27721; G2 XOR 822 16683 27722; G2 XOR 821 16683 27723; G2 XOR 820 16683 27724;
  G2 XOR 819 16683 27725; G2 XOR 818 16683 27726; G2 XOR 817 16683 27727; G2 XOR 816 16683 27728;
  G2 XOR 815 16683 27729; G2 XOR 814 16683 27730; G2 XOR 813 16683 27731; G2 XOR 812 16683 27732;
  G2 XOR 811 16683 27733; G2 XOR 810 16683 27734; G2 XOR 809 16683 27735; G2 XOR 808 16683 27736;
  G2 XOR 807 16683 27737; G2 XOR 806 16683 27738; G2 XOR 805 16683 27739; G2 XOR 804 16683 27740;
  G2 XOR 803 16683 27741; G2 XOR 802 16683 27742; G2 XOR 801 16683 27743; G2 XOR 800 16683 27744;
  G2 XOR 799 16683 27745; G2 XOR 798 16683 27746; G2 XOR 797 16683 27747; G2 XOR 796 16683 27748;
  G2 XOR 795 16683 27749; G2 XOR 794 16683 27750; G2 XOR 793 16683 27751; G2 XOR 792 16683 27752;
  G2 XOR 791 16683 27753; G2 XOR 790 16683 27754; G2 XOR 789 16683 27755; G2 XOR 788 16683 27756;
  G2 XOR 787 16683 27757; G2 XOR 786 16683 27758; G2 XOR 785 16683 27759; G2 XOR 784 16683 27760;
  G2 XOR 783 16683 27761; G2 XOR 782 16683 27762; G2 XOR 781 16683 27763; G2 XOR 780 16683 27764;
  G2 XOR 779 16683 27765; G2 XOR 778 16683 27766; G2 XOR 777 16683 27767; G2 XOR 776 16683 27768;
  G2 XOR 775 16683 27769; G2 XOR 774 16683 27770; G2 XOR 773 16683 27771; G2 XOR 772 16683 27772;
  G2 XOR 771 16683 27773; G2 XOR 770 16683 27774; G2 XOR 769 16683 27775; G2 XOR 768 16683 27776;
  G2 XOR 767 16683 27777; G2 XOR 766 16683 27778; G2 XOR 765 16683 27779; G2 XOR 764 16683 27780;
  G2 XOR 763 16683 27781; G2 XOR 762 16683 27782; G2 XOR 761 16683 27783; G2 AND 27721 16946 27595;
  G2 XOR 27658 27595 884; G2 XOR 884 16948 27470; G2 XOR 27722 27595 14580; G2 XOR 16947 27595 14579;
  G2 AND 14580 14579 14578; G2 XOR 14578 27595 27596; G2 XOR 27659 27596 883; G2 XOR 883 16949 27471;
  G2 XOR 27723 27596 14577; G2 XOR 16948 27596 14576; G2 AND 14577 14576 14575; G2 XOR 14575 27596 27597;
  G2 XOR 27660 27597 882; G2 XOR 882 16950 27472; G2 XOR 27724 27597 14574; G2 XOR 16949 27597 14573;
  G2 AND 14574 14573 14572; G2 XOR 14572 27597 27598; G2 XOR 27661 27598 881; G2 XOR 881 16951 27473;
  G2 XOR 27725 27598 14571; G2 XOR 16950 27598 14570; G2 AND 14571 14570 14569; G2 XOR 14569 27598 27599;
  G2 XOR 27662 27599 880; G2 XOR 880 16952 27474; G2 XOR 27726 27599 14568; G2 XOR 16951 27599 14567;
  G2 AND 14568 14567 14566; G2 XOR 14566 27599 27600; G2 XOR 27663 27600 879; G2 XOR 879 16953 27475;
  G2 XOR 27727 27600 14565; G2 XOR 16952 27600 14564; G2 AND 14565 14564 14563; G2 XOR 14563 27600 27601;
  G2 XOR 27664 27601 878; G2 XOR 878 16954 27476; G2 XOR 27728 27601 14562; G2 XOR 16953 27601 14561;
  G2 AND 14562 14561 14560; G2 XOR 14560 27601 27602; G2 XOR 27665 27602 877; G2 XOR 877 16955 27477;
  G2 XOR 27729 27602 14559; G2 XOR 16954 27602 14558; G2 AND 14559 14558 14557; G2 XOR 14557 27602 27603;
  G2 XOR 27666 27603 876; G2 XOR 876 16956 27478; G2 XOR 27730 27603 14556; G2 XOR 16955 27603 14555;
  G2 AND 14556 14555 14554; G2 XOR 14554 27603 27604; G2 XOR 27667 27604 875; G2 XOR 875 16957 27479;
  G2 XOR 27731 27604 14553; G2 XOR 16956 27604 14552; G2 AND 14553 14552 14551; G2 XOR 14551 27604 27605;
  G2 XOR 27668 27605 874; G2 XOR 874 16958 27480; G2 XOR 27732 27605 14550; G2 XOR 16957 27605 14549;
  G2 AND 14550 14549 14548; G2 XOR 14548 27605 27606; G2 XOR 27669 27606 873; G2 XOR 873 16959 27481;
  G2 XOR 27733 27606 14547; G2 XOR 16958 27606 14546; G2 AND 14547 14546 14545; G2 XOR 14545 27606 27607;
  G2 XOR 27670 27607 872; G2 XOR 872 16960 27482; G2 XOR 27734 27607 14544; G2 XOR 16959 27607 14543;
  G2 AND 14544 14543 14542; G2 XOR 14542 27607 27608; G2 XOR 27671 27608 871; G2 XOR 871 16961 27483;
  G2 XOR 27735 27608 14541; G2 XOR 16960 27608 14540; G2 AND 14541 14540 14539; G2 XOR 14539 27608 27609;
  G2 XOR 27672 27609 870; G2 XOR 870 16962 27484; G2 XOR 27736 27609 14538; G2 XOR 16961 27609 14537;
  G2 AND 14538 14537 14536; G2 XOR 14536 27609 27610; G2 XOR 27673 27610 869; G2 XOR 869 16963 27485;
  G2 XOR 27737 27610 14535; G2 XOR 16962 27610 14534; G2 AND 14535 14534 14533; G2 XOR 14533 27610 27611;
  G2 XOR 27674 27611 868; G2 XOR 868 16964 27486; G2 XOR 27738 27611 14532; G2 XOR 16963 27611 14531;
  G2 AND 14532 14531 14530; G2 XOR 14530 27611 27612; G2 XOR 27675 27612 867; G2 XOR 867 16965 27487;
  G2 XOR 27739 27612 14529; G2 XOR 16964 27612 14528; G2 AND 14529 14528 14527; G2 XOR 14527 27612 27613;
  G2 XOR 27676 27613 866; G2 XOR 866 16966 27488; G2 XOR 27740 27613 14526; G2 XOR 16965 27613 14525;
  G2 AND 14526 14525 14524; G2 XOR 14524 27613 27614; G2 XOR 27677 27614 865; G2 XOR 865 16967 27489;
  G2 XOR 27741 27614 14523; G2 XOR 16966 27614 14522; G2 AND 14523 14522 14521; G2 XOR 14521 27614 27615;
  G2 XOR 27678 27615 864; G2 XOR 864 16968 27490; G2 XOR 27742 27615 14520; G2 XOR 16967 27615 14519;
  G2 AND 14520 14519 14518; G2 XOR 14518 27615 27616; G2 XOR 27679 27616 863; G2 XOR 863 16969 27491;
  G2 XOR 27743 27616 14517; G2 XOR 16968 27616 14516; G2 AND 14517 14516 14515; G2 XOR 14515 27616 27617;
  G2 XOR 27680 27617 862; G2 XOR 862 16970 27492; G2 XOR 27744 27617 14514; G2 XOR 16969 27617 14513;
  G2 AND 14514 14513 14512; G2 XOR 14512 27617 27618; G2 XOR 27681 27618 861; G2 XOR 861 16971 27493;
  G2 XOR 27745 27618 14511; G2 XOR 16970 27618 14510; G2 AND 14511 14510 14509; G2 XOR 14509 27618 27619;
  G2 XOR 27682 27619 860; G2 XOR 860 16972 27494; G2 XOR 27746 27619 14508; G2 XOR 16971 27619 14507;
  G2 AND 14508 14507 14506; G2 XOR 14506 27619 27620; G2 XOR 27683 27620 859; G2 XOR 859 16973 27495;
  G2 XOR 27747 27620 14505; G2 XOR 16972 27620 14504; G2 AND 14505 14504 14503; G2 XOR 14503 27620 27621;
  G2 XOR 27684 27621 858; G2 XOR 858 16974 27496; G2 XOR 27748 27621 14502; G2 XOR 16973 27621 14501;
  G2 AND 14502 14501 14500; G2 XOR 14500 27621 27622; G2 XOR 27685 27622 857; G2 XOR 857 16975 27497;
  G2 XOR 27749 27622 14499; G2 XOR 16974 27622 14498; G2 AND 14499 14498 14497; G2 XOR 14497 27622 27623;
  G2 XOR 27686 27623 856; G2 XOR 856 16976 27498; G2 XOR 27750 27623 14496; G2 XOR 16975 27623 14495;
  G2 AND 14496 14495 14494; G2 XOR 14494 27623 27624; G2 XOR 27687 27624 855; G2 XOR 855 16977 27499;
  G2 XOR 27751 27624 14493; G2 XOR 16976 27624 14492; G2 AND 14493 14492 14491; G2 XOR 14491 27624 27625;
  G2 XOR 27688 27625 854; G2 XOR 854 16978 27500; G2 XOR 27752 27625 14490; G2 XOR 16977 27625 14489;
  G2 AND 14490 14489 14488; G2 XOR 14488 27625 27626; G2 XOR 27689 27626 853; G2 XOR 853 16979 27501;
  G2 XOR 27753 27626 14487; G2 XOR 16978 27626 14486; G2 AND 14487 14486 14485; G2 XOR 14485 27626 27627;
  G2 XOR 27690 27627 852; G2 XOR 852 16980 27502; G2 XOR 27754 27627 14484; G2 XOR 16979 27627 14483;
  G2 AND 14484 14483 14482; G2 XOR 14482 27627 27628; G2 XOR 27691 27628 851; G2 XOR 851 16981 27503;
  G2 XOR 27755 27628 14481; G2 XOR 16980 27628 14480; G2 AND 14481 14480 14479; G2 XOR 14479 27628 27629;
  G2 XOR 27692 27629 850; G2 XOR 850 16982 27504; G2 XOR 27756 27629 14478; G2 XOR 16981 27629 14477;
  G2 AND 14478 14477 14476; G2 XOR 14476 27629 27630; G2 XOR 27693 27630 849; G2 XOR 849 16983 27505;
  G2 XOR 27757 27630 14475; G2 XOR 16982 27630 14474; G2 AND 14475 14474 14473; G2 XOR 14473 27630 27631;
  G2 XOR 27694 27631 848; G2 XOR 848 16984 27506; G2 XOR 27758 27631 14472; G2 XOR 16983 27631 14471;
  G2 AND 14472 14471 14470; G2 XOR 14470 27631 27632; G2 XOR 27695 27632 847; G2 XOR 847 16985 27507;
  G2 XOR 27759 27632 14469; G2 XOR 16984 27632 14468; G2 AND 14469 14468 14467; G2 XOR 14467 27632 27633;
  G2 XOR 27696 27633 846; G2 XOR 846 16986 27508; G2 XOR 27760 27633 14466; G2 XOR 16985 27633 14465;
  G2 AND 14466 14465 14464; G2 XOR 14464 27633 27634; G2 XOR 27697 27634 845; G2 XOR 845 16987 27509;
  G2 XOR 27761 27634 14463; G2 XOR 16986 27634 14462; G2 AND 14463 14462 14461; G2 XOR 14461 27634 27635;
  G2 XOR 27698 27635 844; G2 XOR 844 16988 27510; G2 XOR 27762 27635 14460; G2 XOR 16987 27635 14459;
  G2 AND 14460 14459 14458; G2 XOR 14458 27635 27636; G2 XOR 27699 27636 843; G2 XOR 843 16989 27511;
  G2 XOR 27763 27636 14457; G2 XOR 16988 27636 14456; G2 AND 14457 14456 14455; G2 XOR 14455 27636 27637;
  G2 XOR 27700 27637 842; G2 XOR 842 16990 27512; G2 XOR 27764 27637 14454; G2 XOR 16989 27637 14453;
  G2 AND 14454 14453 14452; G2 XOR 14452 27637 27638; G2 XOR 27701 27638 841; G2 XOR 841 16991 27513;
  G2 XOR 27765 27638 14451; G2 XOR 16990 27638 14450; G2 AND 14451 14450 14449; G2 XOR 14449 27638 27639;
  G2 XOR 27702 27639 840; G2 XOR 840 16992 27514; G2 XOR 27766 27639 14448; G2 XOR 16991 27639 14447;
  G2 AND 14448 14447 14446; G2 XOR 14446 27639 27640; G2 XOR 27703 27640 839; G2 XOR 839 16993 27515;
  G2 XOR 27767 27640 14445; G2 XOR 16992 27640 14444; G2 AND 14445 14444 14443; G2 XOR 14443 27640 27641;
  G2 XOR 27704 27641 838; G2 XOR 838 16994 27516; G2 XOR 27768 27641 14442; G2 XOR 16993 27641 14441;
  G2 AND 14442 14441 14440; G2 XOR 14440 27641 27642; G2 XOR 27705 27642 837; G2 XOR 837 16995 27517;
  G2 XOR 27769 27642 14439; G2 XOR 16994 27642 14438; G2 AND 14439 14438 14437; G2 XOR 14437 27642 27643;
  G2 XOR 27706 27643 836; G2 XOR 836 16996 27518; G2 XOR 27770 27643 14436; G2 XOR 16995 27643 14435;
  G2 AND 14436 14435 14434; G2 XOR 14434 27643 27644; G2 XOR 27707 27644 835; G2 XOR 835 16997 27519;
  G2 XOR 27771 27644 14433; G2 XOR 16996 27644 14432; G2 AND 14433 14432 14431; G2 XOR 14431 27644 27645;
  G2 XOR 27708 27645 834; G2 XOR 834 16998 27520; G2 XOR 27772 27645 14430; G2 XOR 16997 27645 14429;
  G2 AND 14430 14429 14428; G2 XOR 14428 27645 27646; G2 XOR 27709 27646 833; G2 XOR 833 16999 27521;
  G2 XOR 27773 27646 14427; G2 XOR 16998 27646 14426; G2 AND 14427 14426 14425; G2 XOR 14425 27646 27647;
  G2 XOR 27710 27647 832; G2 XOR 832 17000 27522; G2 XOR 27774 27647 14424; G2 XOR 16999 27647 14423;
  G2 AND 14424 14423 14422; G2 XOR 14422 27647 27648; G2 XOR 27711 27648 831; G2 XOR 831 17001 27523;
  G2 XOR 27775 27648 14421; G2 XOR 17000 27648 14420; G2 AND 14421 14420 14419; G2 XOR 14419 27648 27649;
  G2 XOR 27712 27649 830; G2 XOR 830 17002 27524; G2 XOR 27776 27649 14418; G2 XOR 17001 27649 14417;
  G2 AND 14418 14417 14416; G2 XOR 14416 27649 27650; G2 XOR 27713 27650 829; G2 XOR 829 17003 27525;
  G2 XOR 27777 27650 14415; G2 XOR 17002 27650 14414; G2 AND 14415 14414 14413; G2 XOR 14413 27650 27651;
  G2 XOR 27714 27651 828; G2 XOR 828 17004 27526; G2 XOR 27778 27651 14412; G2 XOR 17003 27651 14411;
  G2 AND 14412 14411 14410; G2 XOR 14410 27651 27652; G2 XOR 27715 27652 827; G2 XOR 827 17005 27527;
  G2 XOR 27779 27652 14409; G2 XOR 17004 27652 14408; G2 AND 14409 14408 14407; G2 XOR 14407 27652 27653;
  G2 XOR 27716 27653 826; G2 XOR 826 17006 27528; G2 XOR 27780 27653 14406; G2 XOR 17005 27653 14405;
  G2 AND 14406 14405 14404; G2 XOR 14404 27653 27654; G2 XOR 27717 27654 825; G2 XOR 825 17007 27529;
  G2 XOR 27781 27654 14403; G2 XOR 17006 27654 14402; G2 AND 14403 14402 14401; G2 XOR 14401 27654 27655;
  G2 XOR 27718 27655 824; G2 XOR 824 17008 27530; G2 XOR 27782 27655 14400; G2 XOR 17007 27655 14399;
  G2 AND 14400 14399 14398; G2 XOR 14398 27655 27656; G2 XOR 27719 27656 823; G2 XOR 823 17009 27531;
  G2 XOR 27783 27656 14397; G2 XOR 17008 27656 14396; G2 AND 14397 14396 14395; G2 XOR 14395 27656 27657;
  G2 XOR 27720 27657 140; G1 INV 140 16682; G2 XOR 16871 16682 27532; G2 XOR 885 16682 27533;
  G2 XOR 884 16682 27534; G2 XOR 883 16682 27535; G2 XOR 882 16682 27536; G2 XOR 881 16682 27537;
  G2 XOR 880 16682 27538; G2 XOR 879 16682 27539; G2 XOR 878 16682 27540; G2 XOR 877 16682 27541;
  G2 XOR 876 16682 27542; G2 XOR 875 16682 27543; G2 XOR 874 16682 27544; G2 XOR 873 16682 27545;
  G2 XOR 872 16682 27546; G2 XOR 871 16682 27547; G2 XOR 870 16682 27548; G2 XOR 869 16682 27549;
  G2 XOR 868 16682 27550; G2 XOR 867 16682 27551; G2 XOR 866 16682 27552; G2 XOR 865 16682 27553;
  G2 XOR 864 16682 27554; G2 XOR 863 16682 27555; G2 XOR 862 16682 27556; G2 XOR 861 16682 27557;
  G2 XOR 860 16682 27558; G2 XOR 859 16682 27559; G2 XOR 858 16682 27560; G2 XOR 857 16682 27561;
  G2 XOR 856 16682 27562; G2 XOR 855 16682 27563; G2 XOR 854 16682 27564; G2 XOR 853 16682 27565;
  G2 XOR 852 16682 27566; G2 XOR 851 16682 27567; G2 XOR 850 16682 27568; G2 XOR 849 16682 27569;
  G2 XOR 848 16682 27570; G2 XOR 847 16682 27571; G2 XOR 846 16682 27572; G2 XOR 845 16682 27573;
  G2 XOR 844 16682 27574; G2 XOR 843 16682 27575; G2 XOR 842 16682 27576; G2 XOR 841 16682 27577;
  G2 XOR 840 16682 27578; G2 XOR 839 16682 27579; G2 XOR 838 16682 27580; G2 XOR 837 16682 27581;
  G2 XOR 836 16682 27582; G2 XOR 835 16682 27583; G2 XOR 834 16682 27584; G2 XOR 833 16682 27585;
  G2 XOR 832 16682 27586; G2 XOR 831 16682 27587; G2 XOR 830 16682 27588; G2 XOR 829 16682 27589;
  G2 XOR 828 16682 27590; G2 XOR 827 16682 27591; G2 XOR 826 16682 27592; G2 XOR 825 16682 27593;
  G2 XOR 824 16682 27594; G2 AND 27532 16946 27406; G2 XOR 27469 27406 947; G2 XOR 947 16948 27281;
  G2 XOR 27533 27406 14394; G2 XOR 16947 27406 14393; G2 AND 14394 14393 14392; G2 XOR 14392 27406 27407;
  G2 XOR 27470 27407 946; G2 XOR 946 16949 27282; G2 XOR 27534 27407 14391; G2 XOR 16948 27407 14390;
  G2 AND 14391 14390 14389; G2 XOR 14389 27407 27408; G2 XOR 27471 27408 945; G2 XOR 945 16950 27283;
  G2 XOR 27535 27408 14388; G2 XOR 16949 27408 14387; G2 AND 14388 14387 14386; G2 XOR 14386 27408 27409;
  G2 XOR 27472 27409 944; G2 XOR 944 16951 27284; G2 XOR 27536 27409 14385; G2 XOR 16950 27409 14384;
  G2 AND 14385 14384 14383; G2 XOR 14383 27409 27410; G2 XOR 27473 27410 943; G2 XOR 943 16952 27285;
  G2 XOR 27537 27410 14382; G2 XOR 16951 27410 14381; G2 AND 14382 14381 14380; G2 XOR 14380 27410 27411;
  G2 XOR 27474 27411 942; G2 XOR 942 16953 27286; G2 XOR 27538 27411 14379; G2 XOR 16952 27411 14378;
  G2 AND 14379 14378 14377; G2 XOR 14377 27411 27412; G2 XOR 27475 27412 941; G2 XOR 941 16954 27287;
  G2 XOR 27539 27412 14376; G2 XOR 16953 27412 14375; G2 AND 14376 14375 14374; G2 XOR 14374 27412 27413;
  G2 XOR 27476 27413 940; G2 XOR 940 16955 27288; G2 XOR 27540 27413 14373; G2 XOR 16954 27413 14372;
  G2 AND 14373 14372 14371; G2 XOR 14371 27413 27414; G2 XOR 27477 27414 939; G2 XOR 939 16956 27289;
  G2 XOR 27541 27414 14370; G2 XOR 16955 27414 14369; G2 AND 14370 14369 14368; G2 XOR 14368 27414 27415;
  G2 XOR 27478 27415 938; G2 XOR 938 16957 27290; G2 XOR 27542 27415 14367; G2 XOR 16956 27415 14366;
  G2 AND 14367 14366 14365; G2 XOR 14365 27415 27416; G2 XOR 27479 27416 937; G2 XOR 937 16958 27291;
  G2 XOR 27543 27416 14364; G2 XOR 16957 27416 14363; G2 AND 14364 14363 14362; G2 XOR 14362 27416 27417;
  G2 XOR 27480 27417 936; G2 XOR 936 16959 27292; G2 XOR 27544 27417 14361; G2 XOR 16958 27417 14360;
  G2 AND 14361 14360 14359; G2 XOR 14359 27417 27418; G2 XOR 27481 27418 935; G2 XOR 935 16960 27293;
  G2 XOR 27545 27418 14358; G2 XOR 16959 27418 14357; G2 AND 14358 14357 14356; G2 XOR 14356 27418 27419;
  G2 XOR 27482 27419 934; G2 XOR 934 16961 27294; G2 XOR 27546 27419 14355; G2 XOR 16960 27419 14354;
  G2 AND 14355 14354 14353; G2 XOR 14353 27419 27420; G2 XOR 27483 27420 933; G2 XOR 933 16962 27295;
  G2 XOR 27547 27420 14352; G2 XOR 16961 27420 14351; G2 AND 14352 14351 14350; G2 XOR 14350 27420 27421;
  G2 XOR 27484 27421 932; G2 XOR 932 16963 27296; G2 XOR 27548 27421 14349; G2 XOR 16962 27421 14348;
  G2 AND 14349 14348 14347; G2 XOR 14347 27421 27422; G2 XOR 27485 27422 931; G2 XOR 931 16964 27297;
  G2 XOR 27549 27422 14346; G2 XOR 16963 27422 14345; G2 AND 14346 14345 14344; G2 XOR 14344 27422 27423;
  G2 XOR 27486 27423 930; G2 XOR 930 16965 27298; G2 XOR 27550 27423 14343; G2 XOR 16964 27423 14342;
  G2 AND 14343 14342 14341; G2 XOR 14341 27423 27424; G2 XOR 27487 27424 929; G2 XOR 929 16966 27299;
  G2 XOR 27551 27424 14340; G2 XOR 16965 27424 14339; G2 AND 14340 14339 14338; G2 XOR 14338 27424 27425;
  G2 XOR 27488 27425 928; G2 XOR 928 16967 27300; G2 XOR 27552 27425 14337; G2 XOR 16966 27425 14336;
  G2 AND 14337 14336 14335; G2 XOR 14335 27425 27426; G2 XOR 27489 27426 927; G2 XOR 927 16968 27301;
  G2 XOR 27553 27426 14334; G2 XOR 16967 27426 14333; G2 AND 14334 14333 14332; G2 XOR 14332 27426 27427;
  G2 XOR 27490 27427 926; G2 XOR 926 16969 27302; G2 XOR 27554 27427 14331; G2 XOR 16968 27427 14330;
  G2 AND 14331 14330 14329; G2 XOR 14329 27427 27428; G2 XOR 27491 27428 925; G2 XOR 925 16970 27303;
  G2 XOR 27555 27428 14328; G2 XOR 16969 27428 14327; G2 AND 14328 14327 14326; G2 XOR 14326 27428 27429;
  G2 XOR 27492 27429 924; G2 XOR 924 16971 27304; G2 XOR 27556 27429 14325; G2 XOR 16970 27429 14324;
  G2 AND 14325 14324 14323; G2 XOR 14323 27429 27430; G2 XOR 27493 27430 923; G2 XOR 923 16972 27305;
  G2 XOR 27557 27430 14322; G2 XOR 16971 27430 14321; G2 AND 14322 14321 14320; G2 XOR 14320 27430 27431;
  G2 XOR 27494 27431 922; G2 XOR 922 16973 27306; G2 XOR 27558 27431 14319; G2 XOR 16972 27431 14318;
  G2 AND 14319 14318 14317; G2 XOR 14317 27431 27432; G2 XOR 27495 27432 921; G2 XOR 921 16974 27307;
  G2 XOR 27559 27432 14316; G2 XOR 16973 27432 14315; G2 AND 14316 14315 14314; G2 XOR 14314 27432 27433;
  G2 XOR 27496 27433 920; G2 XOR 920 16975 27308; G2 XOR 27560 27433 14313; G2 XOR 16974 27433 14312;
  G2 AND 14313 14312 14311; G2 XOR 14311 27433 27434; G2 XOR 27497 27434 919; G2 XOR 919 16976 27309;
  G2 XOR 27561 27434 14310; G2 XOR 16975 27434 14309; G2 AND 14310 14309 14308; G2 XOR 14308 27434 27435;
  G2 XOR 27498 27435 918; G2 XOR 918 16977 27310; G2 XOR 27562 27435 14307; G2 XOR 16976 27435 14306;
  G2 AND 14307 14306 14305; G2 XOR 14305 27435 27436; G2 XOR 27499 27436 917; G2 XOR 917 16978 27311;
  G2 XOR 27563 27436 14304; G2 XOR 16977 27436 14303; G2 AND 14304 14303 14302; G2 XOR 14302 27436 27437;
  G2 XOR 27500 27437 916; G2 XOR 916 16979 27312; G2 XOR 27564 27437 14301; G2 XOR 16978 27437 14300;
  G2 AND 14301 14300 14299; G2 XOR 14299 27437 27438; G2 XOR 27501 27438 915; G2 XOR 915 16980 27313;
  G2 XOR 27565 27438 14298; G2 XOR 16979 27438 14297; G2 AND 14298 14297 14296; G2 XOR 14296 27438 27439;
  G2 XOR 27502 27439 914; G2 XOR 914 16981 27314; G2 XOR 27566 27439 14295; G2 XOR 16980 27439 14294;
  G2 AND 14295 14294 14293; G2 XOR 14293 27439 27440; G2 XOR 27503 27440 913; G2 XOR 913 16982 27315;
  G2 XOR 27567 27440 14292; G2 XOR 16981 27440 14291; G2 AND 14292 14291 14290; G2 XOR 14290 27440 27441;
  G2 XOR 27504 27441 912; G2 XOR 912 16983 27316; G2 XOR 27568 27441 14289; G2 XOR 16982 27441 14288;
  G2 AND 14289 14288 14287; G2 XOR 14287 27441 27442; G2 XOR 27505 27442 911; G2 XOR 911 16984 27317;
  G2 XOR 27569 27442 14286; G2 XOR 16983 27442 14285; G2 AND 14286 14285 14284; G2 XOR 14284 27442 27443;
  G2 XOR 27506 27443 910; G2 XOR 910 16985 27318; G2 XOR 27570 27443 14283; G2 XOR 16984 27443 14282;
  G2 AND 14283 14282 14281; G2 XOR 14281 27443 27444; G2 XOR 27507 27444 909; G2 XOR 909 16986 27319;
  G2 XOR 27571 27444 14280; G2 XOR 16985 27444 14279; G2 AND 14280 14279 14278; G2 XOR 14278 27444 27445;
  G2 XOR 27508 27445 908; G2 XOR 908 16987 27320; G2 XOR 27572 27445 14277; G2 XOR 16986 27445 14276;
  G2 AND 14277 14276 14275; G2 XOR 14275 27445 27446; G2 XOR 27509 27446 907; G2 XOR 907 16988 27321;
  G2 XOR 27573 27446 14274; G2 XOR 16987 27446 14273; G2 AND 14274 14273 14272; G2 XOR 14272 27446 27447;
  G2 XOR 27510 27447 906; G2 XOR 906 16989 27322; G2 XOR 27574 27447 14271; G2 XOR 16988 27447 14270;
  G2 AND 14271 14270 14269; G2 XOR 14269 27447 27448; G2 XOR 27511 27448 905; G2 XOR 905 16990 27323;
  G2 XOR 27575 27448 14268; G2 XOR 16989 27448 14267; G2 AND 14268 14267 14266; G2 XOR 14266 27448 27449;
  G2 XOR 27512 27449 904; G2 XOR 904 16991 27324; G2 XOR 27576 27449 14265; G2 XOR 16990 27449 14264;
  G2 AND 14265 14264 14263; G2 XOR 14263 27449 27450; G2 XOR 27513 27450 903; G2 XOR 903 16992 27325;
  G2 XOR 27577 27450 14262; G2 XOR 16991 27450 14261; G2 AND 14262 14261 14260; G2 XOR 14260 27450 27451;
  G2 XOR 27514 27451 902; G2 XOR 902 16993 27326; G2 XOR 27578 27451 14259; G2 XOR 16992 27451 14258;
  G2 AND 14259 14258 14257; G2 XOR 14257 27451 27452; G2 XOR 27515 27452 901; G2 XOR 901 16994 27327;
  G2 XOR 27579 27452 14256; G2 XOR 16993 27452 14255; G2 AND 14256 14255 14254; G2 XOR 14254 27452 27453;
  G2 XOR 27516 27453 900; G2 XOR 900 16995 27328; G2 XOR 27580 27453 14253; G2 XOR 16994 27453 14252;
  G2 AND 14253 14252 14251; G2 XOR 14251 27453 27454; G2 XOR 27517 27454 899; G2 XOR 899 16996 27329;
  G2 XOR 27581 27454 14250; G2 XOR 16995 27454 14249; G2 AND 14250 14249 14248; G2 XOR 14248 27454 27455;
  G2 XOR 27518 27455 898; G2 XOR 898 16997 27330; G2 XOR 27582 27455 14247; G2 XOR 16996 27455 14246;
  G2 AND 14247 14246 14245; G2 XOR 14245 27455 27456; G2 XOR 27519 27456 897; G2 XOR 897 16998 27331;
  G2 XOR 27583 27456 14244; G2 XOR 16997 27456 14243; G2 AND 14244 14243 14242; G2 XOR 14242 27456 27457;
  G2 XOR 27520 27457 896; G2 XOR 896 16999 27332; G2 XOR 27584 27457 14241; G2 XOR 16998 27457 14240;
  G2 AND 14241 14240 14239; G2 XOR 14239 27457 27458; G2 XOR 27521 27458 895; G2 XOR 895 17000 27333;
  G2 XOR 27585 27458 14238; G2 XOR 16999 27458 14237; G2 AND 14238 14237 14236; G2 XOR 14236 27458 27459;
  G2 XOR 27522 27459 894; G2 XOR 894 17001 27334; G2 XOR 27586 27459 14235; G2 XOR 17000 27459 14234;
  G2 AND 14235 14234 14233; G2 XOR 14233 27459 27460; G2 XOR 27523 27460 893; G2 XOR 893 17002 27335;
  G2 XOR 27587 27460 14232; G2 XOR 17001 27460 14231; G2 AND 14232 14231 14230; G2 XOR 14230 27460 27461;
  G2 XOR 27524 27461 892; G2 XOR 892 17003 27336; G2 XOR 27588 27461 14229; G2 XOR 17002 27461 14228;
  G2 AND 14229 14228 14227; G2 XOR 14227 27461 27462; G2 XOR 27525 27462 891; G2 XOR 891 17004 27337;
  G2 XOR 27589 27462 14226; G2 XOR 17003 27462 14225; G2 AND 14226 14225 14224; G2 XOR 14224 27462 27463;
  G2 XOR 27526 27463 890; G2 XOR 890 17005 27338; G2 XOR 27590 27463 14223; G2 XOR 17004 27463 14222;
  G2 AND 14223 14222 14221; G2 XOR 14221 27463 27464; G2 XOR 27527 27464 889; G2 XOR 889 17006 27339;
  G2 XOR 27591 27464 14220; G2 XOR 17005 27464 14219; G2 AND 14220 14219 14218; G2 XOR 14218 27464 27465;
  G2 XOR 27528 27465 888; G2 XOR 888 17007 27340; G2 XOR 27592 27465 14217; G2 XOR 17006 27465 14216;
  G2 AND 14217 14216 14215; G2 XOR 14215 27465 27466; G2 XOR 27529 27466 887; G2 XOR 887 17008 27341;
  G2 XOR 27593 27466 14214; G2 XOR 17007 27466 14213; G2 AND 14214 14213 14212; G2 XOR 14212 27466 27467;
  G2 XOR 27530 27467 886; G2 XOR 886 17009 27342; G2 XOR 27594 27467 14211; G2 XOR 17008 27467 14210;
  G2 AND 14211 14210 14209; G2 XOR 14209 27467 27468; G2 XOR 27531 27468 141; G2 AND 16682 4535 17566;
  G1 INV 141 16681; G2 XOR 16870 16681 27343; G2 XOR 948 16681 27344; G2 XOR 947 16681 27345;
  G2 XOR 946 16681 27346; G2 XOR 945 16681 27347; G2 XOR 944 16681 27348; G2 XOR 943 16681 27349;
  G2 XOR 942 16681 27350; G2 XOR 941 16681 27351; G2 XOR 940 16681 27352; G2 XOR 939 16681 27353;
  G2 XOR 938 16681 27354; G2 XOR 937 16681 27355; G2 XOR 936 16681 27356; G2 XOR 935 16681 27357;
  G2 XOR 934 16681 27358; G2 XOR 933 16681 27359; G2 XOR 932 16681 27360; G2 XOR 931 16681 27361;
  G2 XOR 930 16681 27362; G2 XOR 929 16681 27363; G2 XOR 928 16681 27364; G2 XOR 927 16681 27365;
  G2 XOR 926 16681 27366; G2 XOR 925 16681 27367; G2 XOR 924 16681 27368; G2 XOR 923 16681 27369;
  G2 XOR 922 16681 27370; G2 XOR 921 16681 27371; G2 XOR 920 16681 27372; G2 XOR 919 16681 27373;
  G2 XOR 918 16681 27374; G2 XOR 917 16681 27375; G2 XOR 916 16681 27376; G2 XOR 915 16681 27377;
  G2 XOR 914 16681 27378; G2 XOR 913 16681 27379; G2 XOR 912 16681 27380; G2 XOR 911 16681 27381;
  G2 XOR 910 16681 27382; G2 XOR 909 16681 27383; G2 XOR 908 16681 27384; G2 XOR 907 16681 27385;
  G2 XOR 906 16681 27386; G2 XOR 905 16681 27387; G2 XOR 904 16681 27388; G2 XOR 903 16681 27389;
  G2 XOR 902 16681 27390; G2 XOR 901 16681 27391; G2 XOR 900 16681 27392; G2 XOR 899 16681 27393;
  G2 XOR 898 16681 27394; G2 XOR 897 16681 27395; G2 XOR 896 16681 27396; G2 XOR 895 16681 27397;
  G2 XOR 894 16681 27398; G2 XOR 893 16681 27399; G2 XOR 892 16681 27400; G2 XOR 891 16681 27401;
  G2 XOR 890 16681 27402; G2 XOR 889 16681 27403; G2 XOR 888 16681 27404; G2 XOR 887 16681 27405;
  G2 AND 27343 16946 27217; G2 XOR 27280 27217 1010; G2 XOR 1010 16948 27092; G2 XOR 27344 27217 14208;
  G2 XOR 16947 27217 14207; G2 AND 14208 14207 14206; G2 XOR 14206 27217 27218; G2 XOR 27281 27218 1009;
  G2 XOR 1009 16949 27093; G2 XOR 27345 27218 14205; G2 XOR 16948 27218 14204; G2 AND 14205 14204 14203;
  G2 XOR 14203 27218 27219; G2 XOR 27282 27219 1008; G2 XOR 1008 16950 27094; G2 XOR 27346 27219 14202;
  G2 XOR 16949 27219 14201; G2 AND 14202 14201 14200; G2 XOR 14200 27219 27220; G2 XOR 27283 27220 1007;
  G2 XOR 1007 16951 27095; G2 XOR 27347 27220 14199; G2 XOR 16950 27220 14198; G2 AND 14199 14198 14197;
  G2 XOR 14197 27220 27221; G2 XOR 27284 27221 1006; G2 XOR 1006 16952 27096; G2 XOR 27348 27221 14196;
  G2 XOR 16951 27221 14195; G2 AND 14196 14195 14194; G2 XOR 14194 27221 27222; G2 XOR 27285 27222 1005;
  G2 XOR 1005 16953 27097; G2 XOR 27349 27222 14193; G2 XOR 16952 27222 14192; G2 AND 14193 14192 14191;
  G2 XOR 14191 27222 27223; G2 XOR 27286 27223 1004; G2 XOR 1004 16954 27098; G2 XOR 27350 27223 14190;
  G2 XOR 16953 27223 14189; G2 AND 14190 14189 14188; G2 XOR 14188 27223 27224; G2 XOR 27287 27224 1003;
  G2 XOR 1003 16955 27099; G2 XOR 27351 27224 14187; G2 XOR 16954 27224 14186; G2 AND 14187 14186 14185;
  G2 XOR 14185 27224 27225; G2 XOR 27288 27225 1002; G2 XOR 1002 16956 27100; G2 XOR 27352 27225 14184;
  G2 XOR 16955 27225 14183; G2 AND 14184 14183 14182; G2 XOR 14182 27225 27226; G2 XOR 27289 27226 1001;
  G2 XOR 1001 16957 27101; G2 XOR 27353 27226 14181; G2 XOR 16956 27226 14180; G2 AND 14181 14180 14179;
  G2 XOR 14179 27226 27227; G2 XOR 27290 27227 1000; G2 XOR 1000 16958 27102; G2 XOR 27354 27227 14178;
  G2 XOR 16957 27227 14177; G2 AND 14178 14177 14176; G2 XOR 14176 27227 27228; G2 XOR 27291 27228 999;
  G2 XOR 999 16959 27103; G2 XOR 27355 27228 14175; G2 XOR 16958 27228 14174; G2 AND 14175 14174 14173;
  G2 XOR 14173 27228 27229; G2 XOR 27292 27229 998; G2 XOR 998 16960 27104; G2 XOR 27356 27229 14172;
  G2 XOR 16959 27229 14171; G2 AND 14172 14171 14170; G2 XOR 14170 27229 27230; G2 XOR 27293 27230 997;
  G2 XOR 997 16961 27105; G2 XOR 27357 27230 14169; G2 XOR 16960 27230 14168; G2 AND 14169 14168 14167;
  G2 XOR 14167 27230 27231; G2 XOR 27294 27231 996; G2 XOR 996 16962 27106; G2 XOR 27358 27231 14166;
  G2 XOR 16961 27231 14165; G2 AND 14166 14165 14164; G2 XOR 14164 27231 27232; G2 XOR 27295 27232 995;
  G2 XOR 995 16963 27107; G2 XOR 27359 27232 14163; G2 XOR 16962 27232 14162; G2 AND 14163 14162 14161;
  G2 XOR 14161 27232 27233; G2 XOR 27296 27233 994; G2 XOR 994 16964 27108; G2 XOR 27360 27233 14160;
  G2 XOR 16963 27233 14159; G2 AND 14160 14159 14158; G2 XOR 14158 27233 27234; G2 XOR 27297 27234 993;
  G2 XOR 993 16965 27109; G2 XOR 27361 27234 14157; G2 XOR 16964 27234 14156; G2 AND 14157 14156 14155;
  G2 XOR 14155 27234 27235; G2 XOR 27298 27235 992; G2 XOR 992 16966 27110; G2 XOR 27362 27235 14154;
  G2 XOR 16965 27235 14153; G2 AND 14154 14153 14152; G2 XOR 14152 27235 27236; G2 XOR 27299 27236 991;
  G2 XOR 991 16967 27111; G2 XOR 27363 27236 14151; G2 XOR 16966 27236 14150; G2 AND 14151 14150 14149;
  G2 XOR 14149 27236 27237; G2 XOR 27300 27237 990; G2 XOR 990 16968 27112; G2 XOR 27364 27237 14148;
  G2 XOR 16967 27237 14147; G2 AND 14148 14147 14146; G2 XOR 14146 27237 27238; G2 XOR 27301 27238 989;
  G2 XOR 989 16969 27113; G2 XOR 27365 27238 14145; G2 XOR 16968 27238 14144; G2 AND 14145 14144 14143;
  G2 XOR 14143 27238 27239; G2 XOR 27302 27239 988; G2 XOR 988 16970 27114; G2 XOR 27366 27239 14142;
  G2 XOR 16969 27239 14141; G2 AND 14142 14141 14140; G2 XOR 14140 27239 27240; G2 XOR 27303 27240 987;
  G2 XOR 987 16971 27115; G2 XOR 27367 27240 14139; G2 XOR 16970 27240 14138; G2 AND 14139 14138 14137;
  G2 XOR 14137 27240 27241; G2 XOR 27304 27241 986; G2 XOR 986 16972 27116; G2 XOR 27368 27241 14136;
  G2 XOR 16971 27241 14135; G2 AND 14136 14135 14134; G2 XOR 14134 27241 27242; G2 XOR 27305 27242 985;
  G2 XOR 985 16973 27117; G2 XOR 27369 27242 14133; G2 XOR 16972 27242 14132; G2 AND 14133 14132 14131;
  G2 XOR 14131 27242 27243; G2 XOR 27306 27243 984; G2 XOR 984 16974 27118; G2 XOR 27370 27243 14130;
  G2 XOR 16973 27243 14129; G2 AND 14130 14129 14128; G2 XOR 14128 27243 27244; G2 XOR 27307 27244 983;
  G2 XOR 983 16975 27119; G2 XOR 27371 27244 14127; G2 XOR 16974 27244 14126; G2 AND 14127 14126 14125;
  G2 XOR 14125 27244 27245; G2 XOR 27308 27245 982; G2 XOR 982 16976 27120; G2 XOR 27372 27245 14124;
  G2 XOR 16975 27245 14123; G2 AND 14124 14123 14122; G2 XOR 14122 27245 27246; G2 XOR 27309 27246 981;
  G2 XOR 981 16977 27121; G2 XOR 27373 27246 14121; G2 XOR 16976 27246 14120; G2 AND 14121 14120 14119;
  G2 XOR 14119 27246 27247; G2 XOR 27310 27247 980; G2 XOR 980 16978 27122; G2 XOR 27374 27247 14118;
  G2 XOR 16977 27247 14117; G2 AND 14118 14117 14116; G2 XOR 14116 27247 27248; G2 XOR 27311 27248 979;
  G2 XOR 979 16979 27123; G2 XOR 27375 27248 14115; G2 XOR 16978 27248 14114; G2 AND 14115 14114 14113;
  G2 XOR 14113 27248 27249; G2 XOR 27312 27249 978; G2 XOR 978 16980 27124; G2 XOR 27376 27249 14112;
  G2 XOR 16979 27249 14111; G2 AND 14112 14111 14110; G2 XOR 14110 27249 27250; G2 XOR 27313 27250 977;
  G2 XOR 977 16981 27125; G2 XOR 27377 27250 14109; G2 XOR 16980 27250 14108; G2 AND 14109 14108 14107;
  G2 XOR 14107 27250 27251; G2 XOR 27314 27251 976; G2 XOR 976 16982 27126; G2 XOR 27378 27251 14106;
  G2 XOR 16981 27251 14105; G2 AND 14106 14105 14104; G2 XOR 14104 27251 27252; G2 XOR 27315 27252 975;
  G2 XOR 975 16983 27127; G2 XOR 27379 27252 14103; G2 XOR 16982 27252 14102; G2 AND 14103 14102 14101;
  G2 XOR 14101 27252 27253; G2 XOR 27316 27253 974; G2 XOR 974 16984 27128; G2 XOR 27380 27253 14100;
  G2 XOR 16983 27253 14099; G2 AND 14100 14099 14098; G2 XOR 14098 27253 27254; G2 XOR 27317 27254 973;
  G2 XOR 973 16985 27129; G2 XOR 27381 27254 14097; G2 XOR 16984 27254 14096; G2 AND 14097 14096 14095;
  G2 XOR 14095 27254 27255; G2 XOR 27318 27255 972; G2 XOR 972 16986 27130; G2 XOR 27382 27255 14094;
  G2 XOR 16985 27255 14093; G2 AND 14094 14093 14092; G2 XOR 14092 27255 27256; G2 XOR 27319 27256 971;
  G2 XOR 971 16987 27131; G2 XOR 27383 27256 14091; G2 XOR 16986 27256 14090; G2 AND 14091 14090 14089;
  G2 XOR 14089 27256 27257; G2 XOR 27320 27257 970; G2 XOR 970 16988 27132; G2 XOR 27384 27257 14088;
  G2 XOR 16987 27257 14087; G2 AND 14088 14087 14086; G2 XOR 14086 27257 27258; G2 XOR 27321 27258 969;
  G2 XOR 969 16989 27133; G2 XOR 27385 27258 14085; G2 XOR 16988 27258 14084; G2 AND 14085 14084 14083;
  G2 XOR 14083 27258 27259; G2 XOR 27322 27259 968; G2 XOR 968 16990 27134; G2 XOR 27386 27259 14082;
  G2 XOR 16989 27259 14081; G2 AND 14082 14081 14080; G2 XOR 14080 27259 27260; G2 XOR 27323 27260 967;
  G2 XOR 967 16991 27135; G2 XOR 27387 27260 14079; G2 XOR 16990 27260 14078; G2 AND 14079 14078 14077;
  G2 XOR 14077 27260 27261; G2 XOR 27324 27261 966; G2 XOR 966 16992 27136; G2 XOR 27388 27261 14076;
  G2 XOR 16991 27261 14075; G2 AND 14076 14075 14074; G2 XOR 14074 27261 27262; G2 XOR 27325 27262 965;
  G2 XOR 965 16993 27137; G2 XOR 27389 27262 14073; G2 XOR 16992 27262 14072; G2 AND 14073 14072 14071;
  G2 XOR 14071 27262 27263; G2 XOR 27326 27263 964; G2 XOR 964 16994 27138; G2 XOR 27390 27263 14070;
  G2 XOR 16993 27263 14069; G2 AND 14070 14069 14068; G2 XOR 14068 27263 27264; G2 XOR 27327 27264 963;
  G2 XOR 963 16995 27139; G2 XOR 27391 27264 14067; G2 XOR 16994 27264 14066; G2 AND 14067 14066 14065;
  G2 XOR 14065 27264 27265; G2 XOR 27328 27265 962; G2 XOR 962 16996 27140; G2 XOR 27392 27265 14064;
  G2 XOR 16995 27265 14063; G2 AND 14064 14063 14062; G2 XOR 14062 27265 27266; G2 XOR 27329 27266 961;
  G2 XOR 961 16997 27141; G2 XOR 27393 27266 14061; G2 XOR 16996 27266 14060; G2 AND 14061 14060 14059;
  G2 XOR 14059 27266 27267; G2 XOR 27330 27267 960; G2 XOR 960 16998 27142; G2 XOR 27394 27267 14058;
  G2 XOR 16997 27267 14057; G2 AND 14058 14057 14056; G2 XOR 14056 27267 27268; G2 XOR 27331 27268 959;
  G2 XOR 959 16999 27143; G2 XOR 27395 27268 14055; G2 XOR 16998 27268 14054; G2 AND 14055 14054 14053;
  G2 XOR 14053 27268 27269; G2 XOR 27332 27269 958; G2 XOR 958 17000 27144; G2 XOR 27396 27269 14052;
  G2 XOR 16999 27269 14051; G2 AND 14052 14051 14050; G2 XOR 14050 27269 27270; G2 XOR 27333 27270 957;
  G2 XOR 957 17001 27145; G2 XOR 27397 27270 14049; G2 XOR 17000 27270 14048; G2 AND 14049 14048 14047;
  G2 XOR 14047 27270 27271; G2 XOR 27334 27271 956; G2 XOR 956 17002 27146; G2 XOR 27398 27271 14046;
  G2 XOR 17001 27271 14045; G2 AND 14046 14045 14044; G2 XOR 14044 27271 27272; G2 XOR 27335 27272 955;
  G2 XOR 955 17003 27147; G2 XOR 27399 27272 14043; G2 XOR 17002 27272 14042; G2 AND 14043 14042 14041;
  G2 XOR 14041 27272 27273; G2 XOR 27336 27273 954; G2 XOR 954 17004 27148; G2 XOR 27400 27273 14040;
  G2 XOR 17003 27273 14039; G2 AND 14040 14039 14038; G2 XOR 14038 27273 27274; G2 XOR 27337 27274 953;
  G2 XOR 953 17005 27149; G2 XOR 27401 27274 14037; G2 XOR 17004 27274 14036; G2 AND 14037 14036 14035;
  G2 XOR 14035 27274 27275; G2 XOR 27338 27275 952; G2 XOR 952 17006 27150; G2 XOR 27402 27275 14034;
  G2 XOR 17005 27275 14033; G2 AND 14034 14033 14032; G2 XOR 14032 27275 27276; G2 XOR 27339 27276 951;
  G2 XOR 951 17007 27151; G2 XOR 27403 27276 14031; G2 XOR 17006 27276 14030; G2 AND 14031 14030 14029;
  G2 XOR 14029 27276 27277; G2 XOR 27340 27277 950; G2 XOR 950 17008 27152; G2 XOR 27404 27277 14028;
  G2 XOR 17007 27277 14027; G2 AND 14028 14027 14026; G2 XOR 14026 27277 27278; G2 XOR 27341 27278 949;
  G2 XOR 949 17009 27153; G2 XOR 27405 27278 14025; G2 XOR 17008 27278 14024; G2 AND 14025 14024 14023;
  G2 XOR 14023 27278 27279; G2 XOR 27342 27279 142; G1 INV 142 16680; G2 XOR 16869 16680 27154;
  G2 XOR 1011 16680 27155; G2 XOR 1010 16680 27156; G2 XOR 1009 16680 27157; G2 XOR 1008 16680 27158;
  G2 XOR 1007 16680 27159; G2 XOR 1006 16680 27160; G2 XOR 1005 16680 27161; G2 XOR 1004 16680 27162;
  G2 XOR 1003 16680 27163; G2 XOR 1002 16680 27164; G2 XOR 1001 16680 27165; G2 XOR 1000 16680 27166;
  G2 XOR 999 16680 27167; G2 XOR 998 16680 27168; G2 XOR 997 16680 27169; G2 XOR 996 16680 27170;
  G2 XOR 995 16680 27171; G2 XOR 994 16680 27172; G2 XOR 993 16680 27173; G2 XOR 992 16680 27174;
  G2 XOR 991 16680 27175; G2 XOR 990 16680 27176; G2 XOR 989 16680 27177; G2 XOR 988 16680 27178;
  G2 XOR 987 16680 27179; G2 XOR 986 16680 27180; G2 XOR 985 16680 27181; G2 XOR 984 16680 27182;
  G2 XOR 983 16680 27183; G2 XOR 982 16680 27184; G2 XOR 981 16680 27185; G2 XOR 980 16680 27186;
  G2 XOR 979 16680 27187; G2 XOR 978 16680 27188; G2 XOR 977 16680 27189; G2 XOR 976 16680 27190;
  G2 XOR 975 16680 27191; G2 XOR 974 16680 27192; G2 XOR 973 16680 27193; G2 XOR 972 16680 27194;
  G2 XOR 971 16680 27195; G2 XOR 970 16680 27196; G2 XOR 969 16680 27197; G2 XOR 968 16680 27198;
  G2 XOR 967 16680 27199; G2 XOR 966 16680 27200; G2 XOR 965 16680 27201; G2 XOR 964 16680 27202;
  G2 XOR 963 16680 27203; G2 XOR 962 16680 27204; G2 XOR 961 16680 27205; G2 XOR 960 16680 27206;
  G2 XOR 959 16680 27207; G2 XOR 958 16680 27208; G2 XOR 957 16680 27209; G2 XOR 956 16680 27210;
  G2 XOR 955 16680 27211; G2 XOR 954 16680 27212; G2 XOR 953 16680 27213; G2 XOR 952 16680 27214;
  G2 XOR 951 16680 27215; G2 XOR 950 16680 27216; G2 AND 27154 16946 27028; G2 XOR 27091 27028 1073;
  G2 XOR 1073 16948 26903; G2 XOR 27155 27028 14022; G2 XOR 16947 27028 14021; G2 AND 14022 14021 14020;
  G2 XOR 14020 27028 27029; G2 XOR 27092 27029 1072; G2 XOR 1072 16949 26904; G2 XOR 27156 27029 14019;
  G2 XOR 16948 27029 14018; G2 AND 14019 14018 14017; G2 XOR 14017 27029 27030; G2 XOR 27093 27030 1071;
  G2 XOR 1071 16950 26905; G2 XOR 27157 27030 14016; G2 XOR 16949 27030 14015; G2 AND 14016 14015 14014;
  G2 XOR 14014 27030 27031; G2 XOR 27094 27031 1070; G2 XOR 1070 16951 26906; G2 XOR 27158 27031 14013;
  G2 XOR 16950 27031 14012; G2 AND 14013 14012 14011; G2 XOR 14011 27031 27032; G2 XOR 27095 27032 1069;
  G2 XOR 1069 16952 26907; G2 XOR 27159 27032 14010; G2 XOR 16951 27032 14009; G2 AND 14010 14009 14008;
  G2 XOR 14008 27032 27033; G2 XOR 27096 27033 1068; G2 XOR 1068 16953 26908; G2 XOR 27160 27033 14007;
  G2 XOR 16952 27033 14006; G2 AND 14007 14006 14005; G2 XOR 14005 27033 27034; G2 XOR 27097 27034 1067;
  G2 XOR 1067 16954 26909; G2 XOR 27161 27034 14004; G2 XOR 16953 27034 14003; G2 AND 14004 14003 14002;
  G2 XOR 14002 27034 27035; G2 XOR 27098 27035 1066; G2 XOR 1066 16955 26910; G2 XOR 27162 27035 14001;
  G2 XOR 16954 27035 14000; G2 AND 14001 14000 13999; G2 XOR 13999 27035 27036; G2 XOR 27099 27036 1065;
  G2 XOR 1065 16956 26911; G2 XOR 27163 27036 13998; G2 XOR 16955 27036 13997; G2 AND 13998 13997 13996;
  G2 XOR 13996 27036 27037; G2 XOR 27100 27037 1064; G2 XOR 1064 16957 26912; G2 XOR 27164 27037 13995;
  G2 XOR 16956 27037 13994; G2 AND 13995 13994 13993; G2 XOR 13993 27037 27038; G2 XOR 27101 27038 1063;
  G2 XOR 1063 16958 26913; G2 XOR 27165 27038 13992; G2 XOR 16957 27038 13991; G2 AND 13992 13991 13990;
  G2 XOR 13990 27038 27039; G2 XOR 27102 27039 1062; G2 XOR 1062 16959 26914; G2 XOR 27166 27039 13989;
  G2 XOR 16958 27039 13988; G2 AND 13989 13988 13987; G2 XOR 13987 27039 27040; G2 XOR 27103 27040 1061;
  G2 XOR 1061 16960 26915; G2 XOR 27167 27040 13986; G2 XOR 16959 27040 13985; G2 AND 13986 13985 13984;
  G2 XOR 13984 27040 27041; G2 XOR 27104 27041 1060; G2 XOR 1060 16961 26916; G2 XOR 27168 27041 13983;
  G2 XOR 16960 27041 13982; G2 AND 13983 13982 13981; G2 XOR 13981 27041 27042; G2 XOR 27105 27042 1059;
  G2 XOR 1059 16962 26917; G2 XOR 27169 27042 13980; G2 XOR 16961 27042 13979; G2 AND 13980 13979 13978;
  G2 XOR 13978 27042 27043; G2 XOR 27106 27043 1058; G2 XOR 1058 16963 26918; G2 XOR 27170 27043 13977;
  G2 XOR 16962 27043 13976; G2 AND 13977 13976 13975; G2 XOR 13975 27043 27044; G2 XOR 27107 27044 1057;
  G2 XOR 1057 16964 26919; G2 XOR 27171 27044 13974; G2 XOR 16963 27044 13973; G2 AND 13974 13973 13972;
  G2 XOR 13972 27044 27045; G2 XOR 27108 27045 1056; G2 XOR 1056 16965 26920; G2 XOR 27172 27045 13971;
  G2 XOR 16964 27045 13970; G2 AND 13971 13970 13969; G2 XOR 13969 27045 27046; G2 XOR 27109 27046 1055;
  G2 XOR 1055 16966 26921; G2 XOR 27173 27046 13968; G2 XOR 16965 27046 13967; G2 AND 13968 13967 13966;
  G2 XOR 13966 27046 27047; G2 XOR 27110 27047 1054; G2 XOR 1054 16967 26922; G2 XOR 27174 27047 13965;
  G2 XOR 16966 27047 13964; G2 AND 13965 13964 13963; G2 XOR 13963 27047 27048; G2 XOR 27111 27048 1053;
  G2 XOR 1053 16968 26923; G2 XOR 27175 27048 13962; G2 XOR 16967 27048 13961; G2 AND 13962 13961 13960;
  G2 XOR 13960 27048 27049; G2 XOR 27112 27049 1052; G2 XOR 1052 16969 26924; G2 XOR 27176 27049 13959;
  G2 XOR 16968 27049 13958; G2 AND 13959 13958 13957; G2 XOR 13957 27049 27050; G2 XOR 27113 27050 1051;
  G2 XOR 1051 16970 26925; G2 XOR 27177 27050 13956; G2 XOR 16969 27050 13955; G2 AND 13956 13955 13954;
  G2 XOR 13954 27050 27051; G2 XOR 27114 27051 1050; G2 XOR 1050 16971 26926; G2 XOR 27178 27051 13953;
  G2 XOR 16970 27051 13952; G2 AND 13953 13952 13951; G2 XOR 13951 27051 27052; G2 XOR 27115 27052 1049;
  G2 XOR 1049 16972 26927; G2 XOR 27179 27052 13950; G2 XOR 16971 27052 13949; G2 AND 13950 13949 13948;
  G2 XOR 13948 27052 27053; G2 XOR 27116 27053 1048; G2 XOR 1048 16973 26928; G2 XOR 27180 27053 13947;
  G2 XOR 16972 27053 13946; G2 AND 13947 13946 13945; G2 XOR 13945 27053 27054; G2 XOR 27117 27054 1047;
  G2 XOR 1047 16974 26929; G2 XOR 27181 27054 13944; G2 XOR 16973 27054 13943; G2 AND 13944 13943 13942;
  G2 XOR 13942 27054 27055; G2 XOR 27118 27055 1046; G2 XOR 1046 16975 26930; G2 XOR 27182 27055 13941;
  G2 XOR 16974 27055 13940; G2 AND 13941 13940 13939; G2 XOR 13939 27055 27056; G2 XOR 27119 27056 1045;
  G2 XOR 1045 16976 26931; G2 XOR 27183 27056 13938; G2 XOR 16975 27056 13937; G2 AND 13938 13937 13936;
  G2 XOR 13936 27056 27057; G2 XOR 27120 27057 1044; G2 XOR 1044 16977 26932; G2 XOR 27184 27057 13935;
  G2 XOR 16976 27057 13934; G2 AND 13935 13934 13933; G2 XOR 13933 27057 27058; G2 XOR 27121 27058 1043;
  G2 XOR 1043 16978 26933; G2 XOR 27185 27058 13932; G2 XOR 16977 27058 13931; G2 AND 13932 13931 13930;
  G2 XOR 13930 27058 27059; G2 XOR 27122 27059 1042; G2 XOR 1042 16979 26934; G2 XOR 27186 27059 13929;
  G2 XOR 16978 27059 13928; G2 AND 13929 13928 13927; G2 XOR 13927 27059 27060; G2 XOR 27123 27060 1041;
  G2 XOR 1041 16980 26935; G2 XOR 27187 27060 13926; G2 XOR 16979 27060 13925; G2 AND 13926 13925 13924;
  G2 XOR 13924 27060 27061; G2 XOR 27124 27061 1040; G2 XOR 1040 16981 26936; G2 XOR 27188 27061 13923;
  G2 XOR 16980 27061 13922; G2 AND 13923 13922 13921; G2 XOR 13921 27061 27062; G2 XOR 27125 27062 1039;
  G2 XOR 1039 16982 26937; G2 XOR 27189 27062 13920; G2 XOR 16981 27062 13919; G2 AND 13920 13919 13918;
  G2 XOR 13918 27062 27063; G2 XOR 27126 27063 1038; G2 XOR 1038 16983 26938; G2 XOR 27190 27063 13917;
  G2 XOR 16982 27063 13916; G2 AND 13917 13916 13915; G2 XOR 13915 27063 27064; G2 XOR 27127 27064 1037;
  G2 XOR 1037 16984 26939; G2 XOR 27191 27064 13914; G2 XOR 16983 27064 13913; G2 AND 13914 13913 13912;
  G2 XOR 13912 27064 27065; G2 XOR 27128 27065 1036; G2 XOR 1036 16985 26940; G2 XOR 27192 27065 13911;
  G2 XOR 16984 27065 13910; G2 AND 13911 13910 13909; G2 XOR 13909 27065 27066; G2 XOR 27129 27066 1035;
  G2 XOR 1035 16986 26941; G2 XOR 27193 27066 13908; G2 XOR 16985 27066 13907; G2 AND 13908 13907 13906;
  G2 XOR 13906 27066 27067; G2 XOR 27130 27067 1034; G2 XOR 1034 16987 26942; G2 XOR 27194 27067 13905;
  G2 XOR 16986 27067 13904; G2 AND 13905 13904 13903; G2 XOR 13903 27067 27068; G2 XOR 27131 27068 1033;
  G2 XOR 1033 16988 26943; G2 XOR 27195 27068 13902; G2 XOR 16987 27068 13901; G2 AND 13902 13901 13900;
  G2 XOR 13900 27068 27069; G2 XOR 27132 27069 1032; G2 XOR 1032 16989 26944; G2 XOR 27196 27069 13899;
  G2 XOR 16988 27069 13898; G2 AND 13899 13898 13897; G2 XOR 13897 27069 27070; G2 XOR 27133 27070 1031;
  G2 XOR 1031 16990 26945; G2 XOR 27197 27070 13896; G2 XOR 16989 27070 13895; G2 AND 13896 13895 13894;
  G2 XOR 13894 27070 27071; G2 XOR 27134 27071 1030; G2 XOR 1030 16991 26946; G2 XOR 27198 27071 13893;
  G2 XOR 16990 27071 13892; G2 AND 13893 13892 13891; G2 XOR 13891 27071 27072; G2 XOR 27135 27072 1029;
  G2 XOR 1029 16992 26947; G2 XOR 27199 27072 13890; G2 XOR 16991 27072 13889; G2 AND 13890 13889 13888;
  G2 XOR 13888 27072 27073; G2 XOR 27136 27073 1028; G2 XOR 1028 16993 26948; G2 XOR 27200 27073 13887;
  G2 XOR 16992 27073 13886; G2 AND 13887 13886 13885; G2 XOR 13885 27073 27074; G2 XOR 27137 27074 1027;
  G2 XOR 1027 16994 26949; G2 XOR 27201 27074 13884; G2 XOR 16993 27074 13883; G2 AND 13884 13883 13882;
  G2 XOR 13882 27074 27075; G2 XOR 27138 27075 1026; G2 XOR 1026 16995 26950; G2 XOR 27202 27075 13881;
  G2 XOR 16994 27075 13880; G2 AND 13881 13880 13879; G2 XOR 13879 27075 27076; G2 XOR 27139 27076 1025;
  G2 XOR 1025 16996 26951; G2 XOR 27203 27076 13878; G2 XOR 16995 27076 13877; G2 AND 13878 13877 13876;
  G2 XOR 13876 27076 27077; G2 XOR 27140 27077 1024; G2 XOR 1024 16997 26952; G2 XOR 27204 27077 13875;
  G2 XOR 16996 27077 13874; G2 AND 13875 13874 13873; G2 XOR 13873 27077 27078; G2 XOR 27141 27078 1023;
  G2 XOR 1023 16998 26953; G2 XOR 27205 27078 13872; G2 XOR 16997 27078 13871; G2 AND 13872 13871 13870;
  G2 XOR 13870 27078 27079; G2 XOR 27142 27079 1022; G2 XOR 1022 16999 26954; G2 XOR 27206 27079 13869;
  G2 XOR 16998 27079 13868; G2 AND 13869 13868 13867; G2 XOR 13867 27079 27080; G2 XOR 27143 27080 1021;
  G2 XOR 1021 17000 26955; G2 XOR 27207 27080 13866; G2 XOR 16999 27080 13865; G2 AND 13866 13865 13864;
  G2 XOR 13864 27080 27081; G2 XOR 27144 27081 1020; G2 XOR 1020 17001 26956; G2 XOR 27208 27081 13863;
  G2 XOR 17000 27081 13862; G2 AND 13863 13862 13861; G2 XOR 13861 27081 27082; G2 XOR 27145 27082 1019;
  G2 XOR 1019 17002 26957; G2 XOR 27209 27082 13860; G2 XOR 17001 27082 13859; G2 AND 13860 13859 13858;
  G2 XOR 13858 27082 27083; G2 XOR 27146 27083 1018; G2 XOR 1018 17003 26958; G2 XOR 27210 27083 13857;
  G2 XOR 17002 27083 13856; G2 AND 13857 13856 13855; G2 XOR 13855 27083 27084; G2 XOR 27147 27084 1017;
  G2 XOR 1017 17004 26959; G2 XOR 27211 27084 13854; G2 XOR 17003 27084 13853; G2 AND 13854 13853 13852;
  G2 XOR 13852 27084 27085; G2 XOR 27148 27085 1016; G2 XOR 1016 17005 26960; G2 XOR 27212 27085 13851;
  G2 XOR 17004 27085 13850; G2 AND 13851 13850 13849; G2 XOR 13849 27085 27086; G2 XOR 27149 27086 1015;
  G2 XOR 1015 17006 26961; G2 XOR 27213 27086 13848; G2 XOR 17005 27086 13847; G2 AND 13848 13847 13846;
  G2 XOR 13846 27086 27087; G2 XOR 27150 27087 1014; G2 XOR 1014 17007 26962; G2 XOR 27214 27087 13845;
  G2 XOR 17006 27087 13844; G2 AND 13845 13844 13843; G2 XOR 13843 27087 27088; G2 XOR 27151 27088 1013;
  G2 XOR 1013 17008 26963; G2 XOR 27215 27088 13842; G2 XOR 17007 27088 13841; G2 AND 13842 13841 13840;
  G2 XOR 13840 27088 27089; G2 XOR 27152 27089 1012; G2 XOR 1012 17009 26964; G2 XOR 27216 27089 13839;
  G2 XOR 17008 27089 13838; G2 AND 13839 13838 13837; G2 XOR 13837 27089 27090; G2 XOR 27153 27090 143;
  G2 AND 16680 4535 17564; G1 INV 143 16679; G2 XOR 16868 16679 26965; G2 XOR 1074 16679 26966;
  G2 XOR 1073 16679 26967; G2 XOR 1072 16679 26968; G2 XOR 1071 16679 26969; G2 XOR 1070 16679 26970;
  G2 XOR 1069 16679 26971; G2 XOR 1068 16679 26972; G2 XOR 1067 16679 26973; G2 XOR 1066 16679 26974;
  G2 XOR 1065 16679 26975; G2 XOR 1064 16679 26976; G2 XOR 1063 16679 26977; G2 XOR 1062 16679 26978;
  G2 XOR 1061 16679 26979; G2 XOR 1060 16679 26980; G2 XOR 1059 16679 26981; G2 XOR 1058 16679 26982;
  G2 XOR 1057 16679 26983; G2 XOR 1056 16679 26984; G2 XOR 1055 16679 26985; G2 XOR 1054 16679 26986;
  G2 XOR 1053 16679 26987; G2 XOR 1052 16679 26988; G2 XOR 1051 16679 26989; G2 XOR 1050 16679 26990;
  G2 XOR 1049 16679 26991; G2 XOR 1048 16679 26992; G2 XOR 1047 16679 26993; G2 XOR 1046 16679 26994;
  G2 XOR 1045 16679 26995; G2 XOR 1044 16679 26996; G2 XOR 1043 16679 26997; G2 XOR 1042 16679 26998;
  G2 XOR 1041 16679 26999; G2 XOR 1040 16679 27000; G2 XOR 1039 16679 27001; G2 XOR 1038 16679 27002;
  G2 XOR 1037 16679 27003; G2 XOR 1036 16679 27004; G2 XOR 1035 16679 27005; G2 XOR 1034 16679 27006;
  G2 XOR 1033 16679 27007; G2 XOR 1032 16679 27008; G2 XOR 1031 16679 27009; G2 XOR 1030 16679 27010;
  G2 XOR 1029 16679 27011; G2 XOR 1028 16679 27012; G2 XOR 1027 16679 27013; G2 XOR 1026 16679 27014;
  G2 XOR 1025 16679 27015; G2 XOR 1024 16679 27016; G2 XOR 1023 16679 27017; G2 XOR 1022 16679 27018;
  G2 XOR 1021 16679 27019; G2 XOR 1020 16679 27020; G2 XOR 1019 16679 27021; G2 XOR 1018 16679 27022;
  G2 XOR 1017 16679 27023; G2 XOR 1016 16679 27024; G2 XOR 1015 16679 27025; G2 XOR 1014 16679 27026;
  G2 XOR 1013 16679 27027; G2 AND 26965 16946 26839; G2 XOR 26902 26839 1136; G2 XOR 1136 16948 26714;
  G2 XOR 26966 26839 13836; G2 XOR 16947 26839 13835; G2 AND 13836 13835 13834; G2 XOR 13834 26839 26840;
  G2 XOR 26903 26840 1135; G2 XOR 1135 16949 26715; G2 XOR 26967 26840 13833; G2 XOR 16948 26840 13832;
  G2 AND 13833 13832 13831; G2 XOR 13831 26840 26841; G2 XOR 26904 26841 1134; G2 XOR 1134 16950 26716;
  G2 XOR 26968 26841 13830; G2 XOR 16949 26841 13829; G2 AND 13830 13829 13828; G2 XOR 13828 26841 26842;
  G2 XOR 26905 26842 1133; G2 XOR 1133 16951 26717; G2 XOR 26969 26842 13827; G2 XOR 16950 26842 13826;
  G2 AND 13827 13826 13825; G2 XOR 13825 26842 26843; G2 XOR 26906 26843 1132; G2 XOR 1132 16952 26718;
  G2 XOR 26970 26843 13824; G2 XOR 16951 26843 13823; G2 AND 13824 13823 13822; G2 XOR 13822 26843 26844;
  G2 XOR 26907 26844 1131; G2 XOR 1131 16953 26719; G2 XOR 26971 26844 13821; G2 XOR 16952 26844 13820;
  G2 AND 13821 13820 13819; G2 XOR 13819 26844 26845; G2 XOR 26908 26845 1130; G2 XOR 1130 16954 26720;
  G2 XOR 26972 26845 13818; G2 XOR 16953 26845 13817; G2 AND 13818 13817 13816; G2 XOR 13816 26845 26846;
  G2 XOR 26909 26846 1129; G2 XOR 1129 16955 26721; G2 XOR 26973 26846 13815; G2 XOR 16954 26846 13814;
  G2 AND 13815 13814 13813; G2 XOR 13813 26846 26847; G2 XOR 26910 26847 1128; G2 XOR 1128 16956 26722;
  G2 XOR 26974 26847 13812; G2 XOR 16955 26847 13811; G2 AND 13812 13811 13810; G2 XOR 13810 26847 26848;
  G2 XOR 26911 26848 1127; G2 XOR 1127 16957 26723; G2 XOR 26975 26848 13809; G2 XOR 16956 26848 13808;
  G2 AND 13809 13808 13807; G2 XOR 13807 26848 26849; G2 XOR 26912 26849 1126; G2 XOR 1126 16958 26724;
  G2 XOR 26976 26849 13806; G2 XOR 16957 26849 13805; G2 AND 13806 13805 13804; G2 XOR 13804 26849 26850;
  G2 XOR 26913 26850 1125; G2 XOR 1125 16959 26725; G2 XOR 26977 26850 13803; G2 XOR 16958 26850 13802;
  G2 AND 13803 13802 13801; G2 XOR 13801 26850 26851; G2 XOR 26914 26851 1124; G2 XOR 1124 16960 26726;
  G2 XOR 26978 26851 13800; G2 XOR 16959 26851 13799; G2 AND 13800 13799 13798; G2 XOR 13798 26851 26852;
  G2 XOR 26915 26852 1123; G2 XOR 1123 16961 26727; G2 XOR 26979 26852 13797; G2 XOR 16960 26852 13796;
  G2 AND 13797 13796 13795; G2 XOR 13795 26852 26853; G2 XOR 26916 26853 1122; G2 XOR 1122 16962 26728;
  G2 XOR 26980 26853 13794; G2 XOR 16961 26853 13793; G2 AND 13794 13793 13792; G2 XOR 13792 26853 26854;
  G2 XOR 26917 26854 1121; G2 XOR 1121 16963 26729; G2 XOR 26981 26854 13791; G2 XOR 16962 26854 13790;
  G2 AND 13791 13790 13789; G2 XOR 13789 26854 26855; G2 XOR 26918 26855 1120; G2 XOR 1120 16964 26730;
  G2 XOR 26982 26855 13788; G2 XOR 16963 26855 13787; G2 AND 13788 13787 13786; G2 XOR 13786 26855 26856;
  G2 XOR 26919 26856 1119; G2 XOR 1119 16965 26731; G2 XOR 26983 26856 13785; G2 XOR 16964 26856 13784;
  G2 AND 13785 13784 13783; G2 XOR 13783 26856 26857; G2 XOR 26920 26857 1118; G2 XOR 1118 16966 26732;
  G2 XOR 26984 26857 13782; G2 XOR 16965 26857 13781; G2 AND 13782 13781 13780; G2 XOR 13780 26857 26858;
  G2 XOR 26921 26858 1117; G2 XOR 1117 16967 26733; G2 XOR 26985 26858 13779; G2 XOR 16966 26858 13778;
  G2 AND 13779 13778 13777; G2 XOR 13777 26858 26859; G2 XOR 26922 26859 1116; G2 XOR 1116 16968 26734;
  G2 XOR 26986 26859 13776; G2 XOR 16967 26859 13775; G2 AND 13776 13775 13774; G2 XOR 13774 26859 26860;
  G2 XOR 26923 26860 1115; G2 XOR 1115 16969 26735; G2 XOR 26987 26860 13773; G2 XOR 16968 26860 13772;
  G2 AND 13773 13772 13771; G2 XOR 13771 26860 26861; G2 XOR 26924 26861 1114; G2 XOR 1114 16970 26736;
  G2 XOR 26988 26861 13770; G2 XOR 16969 26861 13769; G2 AND 13770 13769 13768; G2 XOR 13768 26861 26862;
  G2 XOR 26925 26862 1113; G2 XOR 1113 16971 26737; G2 XOR 26989 26862 13767; G2 XOR 16970 26862 13766;
  G2 AND 13767 13766 13765; G2 XOR 13765 26862 26863; G2 XOR 26926 26863 1112; G2 XOR 1112 16972 26738;
  G2 XOR 26990 26863 13764; G2 XOR 16971 26863 13763; G2 AND 13764 13763 13762; G2 XOR 13762 26863 26864;
  G2 XOR 26927 26864 1111; G2 XOR 1111 16973 26739; G2 XOR 26991 26864 13761; G2 XOR 16972 26864 13760;
  G2 AND 13761 13760 13759; G2 XOR 13759 26864 26865; G2 XOR 26928 26865 1110; G2 XOR 1110 16974 26740;
  G2 XOR 26992 26865 13758; G2 XOR 16973 26865 13757; G2 AND 13758 13757 13756; G2 XOR 13756 26865 26866;
  G2 XOR 26929 26866 1109; G2 XOR 1109 16975 26741; G2 XOR 26993 26866 13755; G2 XOR 16974 26866 13754;
  G2 AND 13755 13754 13753; G2 XOR 13753 26866 26867; G2 XOR 26930 26867 1108; G2 XOR 1108 16976 26742;
  G2 XOR 26994 26867 13752; G2 XOR 16975 26867 13751; G2 AND 13752 13751 13750; G2 XOR 13750 26867 26868;
  G2 XOR 26931 26868 1107; G2 XOR 1107 16977 26743; G2 XOR 26995 26868 13749; G2 XOR 16976 26868 13748;
  G2 AND 13749 13748 13747; G2 XOR 13747 26868 26869; G2 XOR 26932 26869 1106; G2 XOR 1106 16978 26744;
  G2 XOR 26996 26869 13746; G2 XOR 16977 26869 13745; G2 AND 13746 13745 13744; G2 XOR 13744 26869 26870;
  G2 XOR 26933 26870 1105; G2 XOR 1105 16979 26745; G2 XOR 26997 26870 13743; G2 XOR 16978 26870 13742;
  G2 AND 13743 13742 13741; G2 XOR 13741 26870 26871; G2 XOR 26934 26871 1104; G2 XOR 1104 16980 26746;
  G2 XOR 26998 26871 13740; G2 XOR 16979 26871 13739; G2 AND 13740 13739 13738; G2 XOR 13738 26871 26872;
  G2 XOR 26935 26872 1103; G2 XOR 1103 16981 26747; G2 XOR 26999 26872 13737; G2 XOR 16980 26872 13736;
  G2 AND 13737 13736 13735; G2 XOR 13735 26872 26873; G2 XOR 26936 26873 1102; G2 XOR 1102 16982 26748;
  G2 XOR 27000 26873 13734; G2 XOR 16981 26873 13733; G2 AND 13734 13733 13732; G2 XOR 13732 26873 26874;
  G2 XOR 26937 26874 1101; G2 XOR 1101 16983 26749; G2 XOR 27001 26874 13731; G2 XOR 16982 26874 13730;
  G2 AND 13731 13730 13729; G2 XOR 13729 26874 26875; G2 XOR 26938 26875 1100; G2 XOR 1100 16984 26750;
  G2 XOR 27002 26875 13728; G2 XOR 16983 26875 13727; G2 AND 13728 13727 13726; G2 XOR 13726 26875 26876;
  G2 XOR 26939 26876 1099; G2 XOR 1099 16985 26751; G2 XOR 27003 26876 13725; G2 XOR 16984 26876 13724;
  G2 AND 13725 13724 13723; G2 XOR 13723 26876 26877; G2 XOR 26940 26877 1098; G2 XOR 1098 16986 26752;
  G2 XOR 27004 26877 13722; G2 XOR 16985 26877 13721; G2 AND 13722 13721 13720; G2 XOR 13720 26877 26878;
  G2 XOR 26941 26878 1097; G2 XOR 1097 16987 26753; G2 XOR 27005 26878 13719; G2 XOR 16986 26878 13718;
  G2 AND 13719 13718 13717; G2 XOR 13717 26878 26879; G2 XOR 26942 26879 1096; G2 XOR 1096 16988 26754;
  G2 XOR 27006 26879 13716; G2 XOR 16987 26879 13715; G2 AND 13716 13715 13714; G2 XOR 13714 26879 26880;
  G2 XOR 26943 26880 1095; G2 XOR 1095 16989 26755; G2 XOR 27007 26880 13713; G2 XOR 16988 26880 13712;
  G2 AND 13713 13712 13711; G2 XOR 13711 26880 26881; G2 XOR 26944 26881 1094; G2 XOR 1094 16990 26756;
  G2 XOR 27008 26881 13710; G2 XOR 16989 26881 13709; G2 AND 13710 13709 13708; G2 XOR 13708 26881 26882;
  G2 XOR 26945 26882 1093; G2 XOR 1093 16991 26757; G2 XOR 27009 26882 13707; G2 XOR 16990 26882 13706;
  G2 AND 13707 13706 13705; G2 XOR 13705 26882 26883; G2 XOR 26946 26883 1092; G2 XOR 1092 16992 26758;
  G2 XOR 27010 26883 13704; G2 XOR 16991 26883 13703; G2 AND 13704 13703 13702; G2 XOR 13702 26883 26884;
  G2 XOR 26947 26884 1091; G2 XOR 1091 16993 26759; G2 XOR 27011 26884 13701; G2 XOR 16992 26884 13700;
  G2 AND 13701 13700 13699; G2 XOR 13699 26884 26885; G2 XOR 26948 26885 1090; G2 XOR 1090 16994 26760;
  G2 XOR 27012 26885 13698; G2 XOR 16993 26885 13697; G2 AND 13698 13697 13696; G2 XOR 13696 26885 26886;
  G2 XOR 26949 26886 1089; G2 XOR 1089 16995 26761; G2 XOR 27013 26886 13695; G2 XOR 16994 26886 13694;
  G2 AND 13695 13694 13693; G2 XOR 13693 26886 26887; G2 XOR 26950 26887 1088; G2 XOR 1088 16996 26762;
  G2 XOR 27014 26887 13692; G2 XOR 16995 26887 13691; G2 AND 13692 13691 13690; G2 XOR 13690 26887 26888;
  G2 XOR 26951 26888 1087; G2 XOR 1087 16997 26763; G2 XOR 27015 26888 13689; G2 XOR 16996 26888 13688;
  G2 AND 13689 13688 13687; G2 XOR 13687 26888 26889; G2 XOR 26952 26889 1086; G2 XOR 1086 16998 26764;
  G2 XOR 27016 26889 13686; G2 XOR 16997 26889 13685; G2 AND 13686 13685 13684; G2 XOR 13684 26889 26890;
  G2 XOR 26953 26890 1085; G2 XOR 1085 16999 26765; G2 XOR 27017 26890 13683; G2 XOR 16998 26890 13682;
  G2 AND 13683 13682 13681; G2 XOR 13681 26890 26891; G2 XOR 26954 26891 1084; G2 XOR 1084 17000 26766;
  G2 XOR 27018 26891 13680; G2 XOR 16999 26891 13679; G2 AND 13680 13679 13678; G2 XOR 13678 26891 26892;
  G2 XOR 26955 26892 1083; G2 XOR 1083 17001 26767; G2 XOR 27019 26892 13677; G2 XOR 17000 26892 13676;
  G2 AND 13677 13676 13675; G2 XOR 13675 26892 26893; G2 XOR 26956 26893 1082; G2 XOR 1082 17002 26768;
  G2 XOR 27020 26893 13674; G2 XOR 17001 26893 13673; G2 AND 13674 13673 13672; G2 XOR 13672 26893 26894;
  G2 XOR 26957 26894 1081; G2 XOR 1081 17003 26769; G2 XOR 27021 26894 13671; G2 XOR 17002 26894 13670;
  G2 AND 13671 13670 13669; G2 XOR 13669 26894 26895; G2 XOR 26958 26895 1080; G2 XOR 1080 17004 26770;
  G2 XOR 27022 26895 13668; G2 XOR 17003 26895 13667; G2 AND 13668 13667 13666; G2 XOR 13666 26895 26896;
  G2 XOR 26959 26896 1079; G2 XOR 1079 17005 26771; G2 XOR 27023 26896 13665; G2 XOR 17004 26896 13664;
  G2 AND 13665 13664 13663; G2 XOR 13663 26896 26897; G2 XOR 26960 26897 1078; G2 XOR 1078 17006 26772;
  G2 XOR 27024 26897 13662; G2 XOR 17005 26897 13661; G2 AND 13662 13661 13660; G2 XOR 13660 26897 26898;
  G2 XOR 26961 26898 1077; G2 XOR 1077 17007 26773; G2 XOR 27025 26898 13659; G2 XOR 17006 26898 13658;
  G2 AND 13659 13658 13657; G2 XOR 13657 26898 26899; G2 XOR 26962 26899 1076; G2 XOR 1076 17008 26774;
  G2 XOR 27026 26899 13656; G2 XOR 17007 26899 13655; G2 AND 13656 13655 13654; G2 XOR 13654 26899 26900;
  G2 XOR 26963 26900 1075; G2 XOR 1075 17009 26775; G2 XOR 27027 26900 13653; G2 XOR 17008 26900 13652;
  G2 AND 13653 13652 13651; G2 XOR 13651 26900 26901; G2 XOR 26964 26901 144; G1 INV 144 16678;
  G2 XOR 16867 16678 26776; G2 XOR 1137 16678 26777; G2 XOR 1136 16678 26778; G2 XOR 1135 16678 26779;
  G2 XOR 1134 16678 26780; G2 XOR 1133 16678 26781; G2 XOR 1132 16678 26782; G2 XOR 1131 16678 26783;
  G2 XOR 1130 16678 26784; G2 XOR 1129 16678 26785; G2 XOR 1128 16678 26786; G2 XOR 1127 16678 26787;
  G2 XOR 1126 16678 26788; G2 XOR 1125 16678 26789; G2 XOR 1124 16678 26790; G2 XOR 1123 16678 26791;
  G2 XOR 1122 16678 26792; G2 XOR 1121 16678 26793; G2 XOR 1120 16678 26794; G2 XOR 1119 16678 26795;
  G2 XOR 1118 16678 26796; G2 XOR 1117 16678 26797; G2 XOR 1116 16678 26798; G2 XOR 1115 16678 26799;
  G2 XOR 1114 16678 26800; G2 XOR 1113 16678 26801; G2 XOR 1112 16678 26802; G2 XOR 1111 16678 26803;
  G2 XOR 1110 16678 26804; G2 XOR 1109 16678 26805; G2 XOR 1108 16678 26806; G2 XOR 1107 16678 26807;
  G2 XOR 1106 16678 26808; G2 XOR 1105 16678 26809; G2 XOR 1104 16678 26810; G2 XOR 1103 16678 26811;
  G2 XOR 1102 16678 26812; G2 XOR 1101 16678 26813; G2 XOR 1100 16678 26814; G2 XOR 1099 16678 26815;
  G2 XOR 1098 16678 26816; G2 XOR 1097 16678 26817; G2 XOR 1096 16678 26818; G2 XOR 1095 16678 26819;
  G2 XOR 1094 16678 26820; G2 XOR 1093 16678 26821; G2 XOR 1092 16678 26822; G2 XOR 1091 16678 26823;
  G2 XOR 1090 16678 26824; G2 XOR 1089 16678 26825; G2 XOR 1088 16678 26826; G2 XOR 1087 16678 26827;
  G2 XOR 1086 16678 26828; G2 XOR 1085 16678 26829; G2 XOR 1084 16678 26830; G2 XOR 1083 16678 26831;
  G2 XOR 1082 16678 26832; G2 XOR 1081 16678 26833; G2 XOR 1080 16678 26834; G2 XOR 1079 16678 26835;
  G2 XOR 1078 16678 26836; G2 XOR 1077 16678 26837; G2 XOR 1076 16678 26838; G2 AND 26776 16946 26650;
  G2 XOR 26713 26650 1199; G2 XOR 1199 16948 26525; G2 XOR 26777 26650 13650; G2 XOR 16947 26650 13649;
  G2 AND 13650 13649 13648; G2 XOR 13648 26650 26651; G2 XOR 26714 26651 1198; G2 XOR 1198 16949 26526;
  G2 XOR 26778 26651 13647; G2 XOR 16948 26651 13646; G2 AND 13647 13646 13645; G2 XOR 13645 26651 26652;
  G2 XOR 26715 26652 1197; G2 XOR 1197 16950 26527; G2 XOR 26779 26652 13644; G2 XOR 16949 26652 13643;
  G2 AND 13644 13643 13642; G2 XOR 13642 26652 26653; G2 XOR 26716 26653 1196; G2 XOR 1196 16951 26528;
  G2 XOR 26780 26653 13641; G2 XOR 16950 26653 13640; G2 AND 13641 13640 13639; G2 XOR 13639 26653 26654;
  G2 XOR 26717 26654 1195; G2 XOR 1195 16952 26529; G2 XOR 26781 26654 13638; G2 XOR 16951 26654 13637;
  G2 AND 13638 13637 13636; G2 XOR 13636 26654 26655; G2 XOR 26718 26655 1194; G2 XOR 1194 16953 26530;
  G2 XOR 26782 26655 13635; G2 XOR 16952 26655 13634; G2 AND 13635 13634 13633; G2 XOR 13633 26655 26656;
  G2 XOR 26719 26656 1193; G2 XOR 1193 16954 26531; G2 XOR 26783 26656 13632; G2 XOR 16953 26656 13631;
  G2 AND 13632 13631 13630; G2 XOR 13630 26656 26657; G2 XOR 26720 26657 1192; G2 XOR 1192 16955 26532;
  G2 XOR 26784 26657 13629; G2 XOR 16954 26657 13628; G2 AND 13629 13628 13627; G2 XOR 13627 26657 26658;
  G2 XOR 26721 26658 1191; G2 XOR 1191 16956 26533; G2 XOR 26785 26658 13626; G2 XOR 16955 26658 13625;
  G2 AND 13626 13625 13624; G2 XOR 13624 26658 26659; G2 XOR 26722 26659 1190; G2 XOR 1190 16957 26534;
  G2 XOR 26786 26659 13623; G2 XOR 16956 26659 13622; G2 AND 13623 13622 13621; G2 XOR 13621 26659 26660;
  G2 XOR 26723 26660 1189; G2 XOR 1189 16958 26535; G2 XOR 26787 26660 13620; G2 XOR 16957 26660 13619;
  G2 AND 13620 13619 13618; G2 XOR 13618 26660 26661; G2 XOR 26724 26661 1188; G2 XOR 1188 16959 26536;
  G2 XOR 26788 26661 13617; G2 XOR 16958 26661 13616; G2 AND 13617 13616 13615; G2 XOR 13615 26661 26662;
  G2 XOR 26725 26662 1187; G2 XOR 1187 16960 26537; G2 XOR 26789 26662 13614; G2 XOR 16959 26662 13613;
  G2 AND 13614 13613 13612; G2 XOR 13612 26662 26663; G2 XOR 26726 26663 1186; G2 XOR 1186 16961 26538;
  G2 XOR 26790 26663 13611; G2 XOR 16960 26663 13610; G2 AND 13611 13610 13609; G2 XOR 13609 26663 26664;
  G2 XOR 26727 26664 1185; G2 XOR 1185 16962 26539; G2 XOR 26791 26664 13608; G2 XOR 16961 26664 13607;
  G2 AND 13608 13607 13606; G2 XOR 13606 26664 26665; G2 XOR 26728 26665 1184; G2 XOR 1184 16963 26540;
  G2 XOR 26792 26665 13605; G2 XOR 16962 26665 13604; G2 AND 13605 13604 13603; G2 XOR 13603 26665 26666;
  G2 XOR 26729 26666 1183; G2 XOR 1183 16964 26541; G2 XOR 26793 26666 13602; G2 XOR 16963 26666 13601;
  G2 AND 13602 13601 13600; G2 XOR 13600 26666 26667; G2 XOR 26730 26667 1182; G2 XOR 1182 16965 26542;
  G2 XOR 26794 26667 13599; G2 XOR 16964 26667 13598; G2 AND 13599 13598 13597; G2 XOR 13597 26667 26668;
  G2 XOR 26731 26668 1181; G2 XOR 1181 16966 26543; G2 XOR 26795 26668 13596; G2 XOR 16965 26668 13595;
  G2 AND 13596 13595 13594; G2 XOR 13594 26668 26669; G2 XOR 26732 26669 1180; G2 XOR 1180 16967 26544;
  G2 XOR 26796 26669 13593; G2 XOR 16966 26669 13592; G2 AND 13593 13592 13591; G2 XOR 13591 26669 26670;
  G2 XOR 26733 26670 1179; G2 XOR 1179 16968 26545; G2 XOR 26797 26670 13590; G2 XOR 16967 26670 13589;
  G2 AND 13590 13589 13588; G2 XOR 13588 26670 26671; G2 XOR 26734 26671 1178; G2 XOR 1178 16969 26546;
  G2 XOR 26798 26671 13587; G2 XOR 16968 26671 13586; G2 AND 13587 13586 13585; G2 XOR 13585 26671 26672;
  G2 XOR 26735 26672 1177; G2 XOR 1177 16970 26547; G2 XOR 26799 26672 13584; G2 XOR 16969 26672 13583;
  G2 AND 13584 13583 13582; G2 XOR 13582 26672 26673; G2 XOR 26736 26673 1176; G2 XOR 1176 16971 26548;
  G2 XOR 26800 26673 13581; G2 XOR 16970 26673 13580; G2 AND 13581 13580 13579; G2 XOR 13579 26673 26674;
  G2 XOR 26737 26674 1175; G2 XOR 1175 16972 26549; G2 XOR 26801 26674 13578; G2 XOR 16971 26674 13577;
  G2 AND 13578 13577 13576; G2 XOR 13576 26674 26675; G2 XOR 26738 26675 1174; G2 XOR 1174 16973 26550;
  G2 XOR 26802 26675 13575; G2 XOR 16972 26675 13574; G2 AND 13575 13574 13573; G2 XOR 13573 26675 26676;
  G2 XOR 26739 26676 1173; G2 XOR 1173 16974 26551; G2 XOR 26803 26676 13572; G2 XOR 16973 26676 13571;
  G2 AND 13572 13571 13570; G2 XOR 13570 26676 26677; G2 XOR 26740 26677 1172; G2 XOR 1172 16975 26552;
  G2 XOR 26804 26677 13569; G2 XOR 16974 26677 13568; G2 AND 13569 13568 13567; G2 XOR 13567 26677 26678;
  G2 XOR 26741 26678 1171; G2 XOR 1171 16976 26553; G2 XOR 26805 26678 13566; G2 XOR 16975 26678 13565;
  G2 AND 13566 13565 13564; G2 XOR 13564 26678 26679; G2 XOR 26742 26679 1170; G2 XOR 1170 16977 26554;
  G2 XOR 26806 26679 13563; G2 XOR 16976 26679 13562; G2 AND 13563 13562 13561; G2 XOR 13561 26679 26680;
  G2 XOR 26743 26680 1169; G2 XOR 1169 16978 26555; G2 XOR 26807 26680 13560; G2 XOR 16977 26680 13559;
  G2 AND 13560 13559 13558; G2 XOR 13558 26680 26681; G2 XOR 26744 26681 1168; G2 XOR 1168 16979 26556;
  G2 XOR 26808 26681 13557; G2 XOR 16978 26681 13556; G2 AND 13557 13556 13555; G2 XOR 13555 26681 26682;
  G2 XOR 26745 26682 1167; G2 XOR 1167 16980 26557; G2 XOR 26809 26682 13554; G2 XOR 16979 26682 13553;
  G2 AND 13554 13553 13552; G2 XOR 13552 26682 26683; G2 XOR 26746 26683 1166; G2 XOR 1166 16981 26558;
  G2 XOR 26810 26683 13551; G2 XOR 16980 26683 13550; G2 AND 13551 13550 13549; G2 XOR 13549 26683 26684;
  G2 XOR 26747 26684 1165; G2 XOR 1165 16982 26559; G2 XOR 26811 26684 13548; G2 XOR 16981 26684 13547;
  G2 AND 13548 13547 13546; G2 XOR 13546 26684 26685; G2 XOR 26748 26685 1164; G2 XOR 1164 16983 26560;
  G2 XOR 26812 26685 13545; G2 XOR 16982 26685 13544; G2 AND 13545 13544 13543; G2 XOR 13543 26685 26686;
  G2 XOR 26749 26686 1163; G2 XOR 1163 16984 26561; G2 XOR 26813 26686 13542; G2 XOR 16983 26686 13541;
  G2 AND 13542 13541 13540; G2 XOR 13540 26686 26687; G2 XOR 26750 26687 1162; G2 XOR 1162 16985 26562;
  G2 XOR 26814 26687 13539; G2 XOR 16984 26687 13538; G2 AND 13539 13538 13537; G2 XOR 13537 26687 26688;
  G2 XOR 26751 26688 1161; G2 XOR 1161 16986 26563; G2 XOR 26815 26688 13536; G2 XOR 16985 26688 13535;
  G2 AND 13536 13535 13534; G2 XOR 13534 26688 26689; G2 XOR 26752 26689 1160; G2 XOR 1160 16987 26564;
  G2 XOR 26816 26689 13533; G2 XOR 16986 26689 13532; G2 AND 13533 13532 13531; G2 XOR 13531 26689 26690;
  G2 XOR 26753 26690 1159; G2 XOR 1159 16988 26565; G2 XOR 26817 26690 13530; G2 XOR 16987 26690 13529;
  G2 AND 13530 13529 13528; G2 XOR 13528 26690 26691; G2 XOR 26754 26691 1158; G2 XOR 1158 16989 26566;
  G2 XOR 26818 26691 13527; G2 XOR 16988 26691 13526; G2 AND 13527 13526 13525; G2 XOR 13525 26691 26692;
  G2 XOR 26755 26692 1157; G2 XOR 1157 16990 26567; G2 XOR 26819 26692 13524; G2 XOR 16989 26692 13523;
  G2 AND 13524 13523 13522; G2 XOR 13522 26692 26693; G2 XOR 26756 26693 1156; G2 XOR 1156 16991 26568;
  G2 XOR 26820 26693 13521; G2 XOR 16990 26693 13520; G2 AND 13521 13520 13519; G2 XOR 13519 26693 26694;
  G2 XOR 26757 26694 1155; G2 XOR 1155 16992 26569; G2 XOR 26821 26694 13518; G2 XOR 16991 26694 13517;
  G2 AND 13518 13517 13516; G2 XOR 13516 26694 26695; G2 XOR 26758 26695 1154; G2 XOR 1154 16993 26570;
  G2 XOR 26822 26695 13515; G2 XOR 16992 26695 13514; G2 AND 13515 13514 13513; G2 XOR 13513 26695 26696;
  G2 XOR 26759 26696 1153; G2 XOR 1153 16994 26571; G2 XOR 26823 26696 13512; G2 XOR 16993 26696 13511;
  G2 AND 13512 13511 13510; G2 XOR 13510 26696 26697; G2 XOR 26760 26697 1152; G2 XOR 1152 16995 26572;
  G2 XOR 26824 26697 13509; G2 XOR 16994 26697 13508; G2 AND 13509 13508 13507; G2 XOR 13507 26697 26698;
  G2 XOR 26761 26698 1151; G2 XOR 1151 16996 26573; G2 XOR 26825 26698 13506; G2 XOR 16995 26698 13505;
  G2 AND 13506 13505 13504; G2 XOR 13504 26698 26699; G2 XOR 26762 26699 1150; G2 XOR 1150 16997 26574;
  G2 XOR 26826 26699 13503; G2 XOR 16996 26699 13502; G2 AND 13503 13502 13501; G2 XOR 13501 26699 26700;
  G2 XOR 26763 26700 1149; G2 XOR 1149 16998 26575; G2 XOR 26827 26700 13500; G2 XOR 16997 26700 13499;
  G2 AND 13500 13499 13498; G2 XOR 13498 26700 26701; G2 XOR 26764 26701 1148; G2 XOR 1148 16999 26576;
  G2 XOR 26828 26701 13497; G2 XOR 16998 26701 13496; G2 AND 13497 13496 13495; G2 XOR 13495 26701 26702;
  G2 XOR 26765 26702 1147; G2 XOR 1147 17000 26577; G2 XOR 26829 26702 13494; G2 XOR 16999 26702 13493;
  G2 AND 13494 13493 13492; G2 XOR 13492 26702 26703; G2 XOR 26766 26703 1146; G2 XOR 1146 17001 26578;
  G2 XOR 26830 26703 13491; G2 XOR 17000 26703 13490; G2 AND 13491 13490 13489; G2 XOR 13489 26703 26704;
  G2 XOR 26767 26704 1145; G2 XOR 1145 17002 26579; G2 XOR 26831 26704 13488; G2 XOR 17001 26704 13487;
  G2 AND 13488 13487 13486; G2 XOR 13486 26704 26705; G2 XOR 26768 26705 1144; G2 XOR 1144 17003 26580;
  G2 XOR 26832 26705 13485; G2 XOR 17002 26705 13484; G2 AND 13485 13484 13483; G2 XOR 13483 26705 26706;
  G2 XOR 26769 26706 1143; G2 XOR 1143 17004 26581; G2 XOR 26833 26706 13482; G2 XOR 17003 26706 13481;
  G2 AND 13482 13481 13480; G2 XOR 13480 26706 26707; G2 XOR 26770 26707 1142; G2 XOR 1142 17005 26582;
  G2 XOR 26834 26707 13479; G2 XOR 17004 26707 13478; G2 AND 13479 13478 13477; G2 XOR 13477 26707 26708;
  G2 XOR 26771 26708 1141; G2 XOR 1141 17006 26583; G2 XOR 26835 26708 13476; G2 XOR 17005 26708 13475;
  G2 AND 13476 13475 13474; G2 XOR 13474 26708 26709; G2 XOR 26772 26709 1140; G2 XOR 1140 17007 26584;
  G2 XOR 26836 26709 13473; G2 XOR 17006 26709 13472; G2 AND 13473 13472 13471; G2 XOR 13471 26709 26710;
  G2 XOR 26773 26710 1139; G2 XOR 1139 17008 26585; G2 XOR 26837 26710 13470; G2 XOR 17007 26710 13469;
  G2 AND 13470 13469 13468; G2 XOR 13468 26710 26711; G2 XOR 26774 26711 1138; G2 XOR 1138 17009 26586;
  G2 XOR 26838 26711 13467; G2 XOR 17008 26711 13466; G2 AND 13467 13466 13465; G2 XOR 13465 26711 26712;
  G2 XOR 26775 26712 145; G2 AND 16678 4535 17562; G1 INV 145 16677; G2 XOR 16866 16677 26587;
  G2 XOR 1200 16677 26588; G2 XOR 1199 16677 26589; G2 XOR 1198 16677 26590; G2 XOR 1197 16677 26591;
  G2 XOR 1196 16677 26592; G2 XOR 1195 16677 26593; G2 XOR 1194 16677 26594; G2 XOR 1193 16677 26595;
  G2 XOR 1192 16677 26596; G2 XOR 1191 16677 26597; G2 XOR 1190 16677 26598; G2 XOR 1189 16677 26599;
  G2 XOR 1188 16677 26600; G2 XOR 1187 16677 26601; G2 XOR 1186 16677 26602; G2 XOR 1185 16677 26603;
  G2 XOR 1184 16677 26604; G2 XOR 1183 16677 26605; G2 XOR 1182 16677 26606; G2 XOR 1181 16677 26607;
  G2 XOR 1180 16677 26608; G2 XOR 1179 16677 26609; G2 XOR 1178 16677 26610; G2 XOR 1177 16677 26611;
  G2 XOR 1176 16677 26612; G2 XOR 1175 16677 26613; G2 XOR 1174 16677 26614; G2 XOR 1173 16677 26615;
  G2 XOR 1172 16677 26616; G2 XOR 1171 16677 26617; G2 XOR 1170 16677 26618; G2 XOR 1169 16677 26619;
  G2 XOR 1168 16677 26620; G2 XOR 1167 16677 26621; G2 XOR 1166 16677 26622; G2 XOR 1165 16677 26623;
  G2 XOR 1164 16677 26624; G2 XOR 1163 16677 26625; G2 XOR 1162 16677 26626; G2 XOR 1161 16677 26627;
  G2 XOR 1160 16677 26628; G2 XOR 1159 16677 26629; G2 XOR 1158 16677 26630; G2 XOR 1157 16677 26631;
  G2 XOR 1156 16677 26632; G2 XOR 1155 16677 26633; G2 XOR 1154 16677 26634; G2 XOR 1153 16677 26635;
  G2 XOR 1152 16677 26636; G2 XOR 1151 16677 26637; G2 XOR 1150 16677 26638; G2 XOR 1149 16677 26639;
  G2 XOR 1148 16677 26640; G2 XOR 1147 16677 26641; G2 XOR 1146 16677 26642; G2 XOR 1145 16677 26643;
  G2 XOR 1144 16677 26644; G2 XOR 1143 16677 26645; G2 XOR 1142 16677 26646; G2 XOR 1141 16677 26647;
  G2 XOR 1140 16677 26648; G2 XOR 1139 16677 26649; G2 AND 26587 16946 26461; G2 XOR 26524 26461 1262;
  G2 XOR 1262 16948 26336; G2 XOR 26588 26461 13464; G2 XOR 16947 26461 13463; G2 AND 13464 13463 13462;
  G2 XOR 13462 26461 26462; G2 XOR 26525 26462 1261; G2 XOR 1261 16949 26337; G2 XOR 26589 26462 13461;
  G2 XOR 16948 26462 13460; G2 AND 13461 13460 13459; G2 XOR 13459 26462 26463; G2 XOR 26526 26463 1260;
  G2 XOR 1260 16950 26338; G2 XOR 26590 26463 13458; G2 XOR 16949 26463 13457; G2 AND 13458 13457 13456;
  G2 XOR 13456 26463 26464; G2 XOR 26527 26464 1259; G2 XOR 1259 16951 26339; G2 XOR 26591 26464 13455;
  G2 XOR 16950 26464 13454; G2 AND 13455 13454 13453; G2 XOR 13453 26464 26465; G2 XOR 26528 26465 1258;
  G2 XOR 1258 16952 26340; G2 XOR 26592 26465 13452; G2 XOR 16951 26465 13451; G2 AND 13452 13451 13450;
  G2 XOR 13450 26465 26466; G2 XOR 26529 26466 1257; G2 XOR 1257 16953 26341; G2 XOR 26593 26466 13449;
  G2 XOR 16952 26466 13448; G2 AND 13449 13448 13447; G2 XOR 13447 26466 26467; G2 XOR 26530 26467 1256;
  G2 XOR 1256 16954 26342; G2 XOR 26594 26467 13446; G2 XOR 16953 26467 13445; G2 AND 13446 13445 13444;
  G2 XOR 13444 26467 26468; G2 XOR 26531 26468 1255; G2 XOR 1255 16955 26343; G2 XOR 26595 26468 13443;
  G2 XOR 16954 26468 13442; G2 AND 13443 13442 13441; G2 XOR 13441 26468 26469; G2 XOR 26532 26469 1254;
  G2 XOR 1254 16956 26344; G2 XOR 26596 26469 13440; G2 XOR 16955 26469 13439; G2 AND 13440 13439 13438;
  G2 XOR 13438 26469 26470; G2 XOR 26533 26470 1253; G2 XOR 1253 16957 26345; G2 XOR 26597 26470 13437;
  G2 XOR 16956 26470 13436; G2 AND 13437 13436 13435; G2 XOR 13435 26470 26471; G2 XOR 26534 26471 1252;
  G2 XOR 1252 16958 26346; G2 XOR 26598 26471 13434; G2 XOR 16957 26471 13433; G2 AND 13434 13433 13432;
  G2 XOR 13432 26471 26472; G2 XOR 26535 26472 1251; G2 XOR 1251 16959 26347; G2 XOR 26599 26472 13431;
  G2 XOR 16958 26472 13430; G2 AND 13431 13430 13429; G2 XOR 13429 26472 26473; G2 XOR 26536 26473 1250;
  G2 XOR 1250 16960 26348; G2 XOR 26600 26473 13428; G2 XOR 16959 26473 13427; G2 AND 13428 13427 13426;
  G2 XOR 13426 26473 26474; G2 XOR 26537 26474 1249; G2 XOR 1249 16961 26349; G2 XOR 26601 26474 13425;
  G2 XOR 16960 26474 13424; G2 AND 13425 13424 13423; G2 XOR 13423 26474 26475; G2 XOR 26538 26475 1248;
  G2 XOR 1248 16962 26350; G2 XOR 26602 26475 13422; G2 XOR 16961 26475 13421; G2 AND 13422 13421 13420;
  G2 XOR 13420 26475 26476; G2 XOR 26539 26476 1247; G2 XOR 1247 16963 26351; G2 XOR 26603 26476 13419;
  G2 XOR 16962 26476 13418; G2 AND 13419 13418 13417; G2 XOR 13417 26476 26477; G2 XOR 26540 26477 1246;
  G2 XOR 1246 16964 26352; G2 XOR 26604 26477 13416; G2 XOR 16963 26477 13415; G2 AND 13416 13415 13414;
  G2 XOR 13414 26477 26478; G2 XOR 26541 26478 1245; G2 XOR 1245 16965 26353; G2 XOR 26605 26478 13413;
  G2 XOR 16964 26478 13412; G2 AND 13413 13412 13411; G2 XOR 13411 26478 26479; G2 XOR 26542 26479 1244;
  G2 XOR 1244 16966 26354; G2 XOR 26606 26479 13410; G2 XOR 16965 26479 13409; G2 AND 13410 13409 13408;
  G2 XOR 13408 26479 26480; G2 XOR 26543 26480 1243; G2 XOR 1243 16967 26355; G2 XOR 26607 26480 13407;
  G2 XOR 16966 26480 13406; G2 AND 13407 13406 13405; G2 XOR 13405 26480 26481; G2 XOR 26544 26481 1242;
  G2 XOR 1242 16968 26356; G2 XOR 26608 26481 13404; G2 XOR 16967 26481 13403; G2 AND 13404 13403 13402;
  G2 XOR 13402 26481 26482; G2 XOR 26545 26482 1241; G2 XOR 1241 16969 26357; G2 XOR 26609 26482 13401;
  G2 XOR 16968 26482 13400; G2 AND 13401 13400 13399; G2 XOR 13399 26482 26483; G2 XOR 26546 26483 1240;
  G2 XOR 1240 16970 26358; G2 XOR 26610 26483 13398; G2 XOR 16969 26483 13397; G2 AND 13398 13397 13396;
  G2 XOR 13396 26483 26484; G2 XOR 26547 26484 1239; G2 XOR 1239 16971 26359; G2 XOR 26611 26484 13395;
  G2 XOR 16970 26484 13394; G2 AND 13395 13394 13393; G2 XOR 13393 26484 26485; G2 XOR 26548 26485 1238;
  G2 XOR 1238 16972 26360; G2 XOR 26612 26485 13392; G2 XOR 16971 26485 13391; G2 AND 13392 13391 13390;
  G2 XOR 13390 26485 26486; G2 XOR 26549 26486 1237; G2 XOR 1237 16973 26361; G2 XOR 26613 26486 13389;
  G2 XOR 16972 26486 13388; G2 AND 13389 13388 13387; G2 XOR 13387 26486 26487; G2 XOR 26550 26487 1236;
  G2 XOR 1236 16974 26362; G2 XOR 26614 26487 13386; G2 XOR 16973 26487 13385; G2 AND 13386 13385 13384;
  G2 XOR 13384 26487 26488; G2 XOR 26551 26488 1235; G2 XOR 1235 16975 26363; G2 XOR 26615 26488 13383;
  G2 XOR 16974 26488 13382; G2 AND 13383 13382 13381; G2 XOR 13381 26488 26489; G2 XOR 26552 26489 1234;
  G2 XOR 1234 16976 26364; G2 XOR 26616 26489 13380; G2 XOR 16975 26489 13379; G2 AND 13380 13379 13378;
  G2 XOR 13378 26489 26490; G2 XOR 26553 26490 1233; G2 XOR 1233 16977 26365; G2 XOR 26617 26490 13377;
  G2 XOR 16976 26490 13376; G2 AND 13377 13376 13375; G2 XOR 13375 26490 26491; G2 XOR 26554 26491 1232;
  G2 XOR 1232 16978 26366; G2 XOR 26618 26491 13374; G2 XOR 16977 26491 13373; G2 AND 13374 13373 13372;
  G2 XOR 13372 26491 26492; G2 XOR 26555 26492 1231; G2 XOR 1231 16979 26367; G2 XOR 26619 26492 13371;
  G2 XOR 16978 26492 13370; G2 AND 13371 13370 13369; G2 XOR 13369 26492 26493; G2 XOR 26556 26493 1230;
  G2 XOR 1230 16980 26368; G2 XOR 26620 26493 13368; G2 XOR 16979 26493 13367; G2 AND 13368 13367 13366;
  G2 XOR 13366 26493 26494; G2 XOR 26557 26494 1229; G2 XOR 1229 16981 26369; G2 XOR 26621 26494 13365;
  G2 XOR 16980 26494 13364; G2 AND 13365 13364 13363; G2 XOR 13363 26494 26495; G2 XOR 26558 26495 1228;
  G2 XOR 1228 16982 26370; G2 XOR 26622 26495 13362; G2 XOR 16981 26495 13361; G2 AND 13362 13361 13360;
  G2 XOR 13360 26495 26496; G2 XOR 26559 26496 1227; G2 XOR 1227 16983 26371; G2 XOR 26623 26496 13359;
  G2 XOR 16982 26496 13358; G2 AND 13359 13358 13357; G2 XOR 13357 26496 26497; G2 XOR 26560 26497 1226;
  G2 XOR 1226 16984 26372; G2 XOR 26624 26497 13356; G2 XOR 16983 26497 13355; G2 AND 13356 13355 13354;
  G2 XOR 13354 26497 26498; G2 XOR 26561 26498 1225; G2 XOR 1225 16985 26373; G2 XOR 26625 26498 13353;
  G2 XOR 16984 26498 13352; G2 AND 13353 13352 13351; G2 XOR 13351 26498 26499; G2 XOR 26562 26499 1224;
  G2 XOR 1224 16986 26374; G2 XOR 26626 26499 13350; G2 XOR 16985 26499 13349; G2 AND 13350 13349 13348;
  G2 XOR 13348 26499 26500; G2 XOR 26563 26500 1223; G2 XOR 1223 16987 26375; G2 XOR 26627 26500 13347;
  G2 XOR 16986 26500 13346; G2 AND 13347 13346 13345; G2 XOR 13345 26500 26501; G2 XOR 26564 26501 1222;
  G2 XOR 1222 16988 26376; G2 XOR 26628 26501 13344; G2 XOR 16987 26501 13343; G2 AND 13344 13343 13342;
  G2 XOR 13342 26501 26502; G2 XOR 26565 26502 1221; G2 XOR 1221 16989 26377; G2 XOR 26629 26502 13341;
  G2 XOR 16988 26502 13340; G2 AND 13341 13340 13339; G2 XOR 13339 26502 26503; G2 XOR 26566 26503 1220;
  G2 XOR 1220 16990 26378; G2 XOR 26630 26503 13338; G2 XOR 16989 26503 13337; G2 AND 13338 13337 13336;
  G2 XOR 13336 26503 26504; G2 XOR 26567 26504 1219; G2 XOR 1219 16991 26379; G2 XOR 26631 26504 13335;
  G2 XOR 16990 26504 13334; G2 AND 13335 13334 13333; G2 XOR 13333 26504 26505; G2 XOR 26568 26505 1218;
  G2 XOR 1218 16992 26380; G2 XOR 26632 26505 13332; G2 XOR 16991 26505 13331; G2 AND 13332 13331 13330;
  G2 XOR 13330 26505 26506; G2 XOR 26569 26506 1217; G2 XOR 1217 16993 26381; G2 XOR 26633 26506 13329;
  G2 XOR 16992 26506 13328; G2 AND 13329 13328 13327; G2 XOR 13327 26506 26507; G2 XOR 26570 26507 1216;
  G2 XOR 1216 16994 26382; G2 XOR 26634 26507 13326; G2 XOR 16993 26507 13325; G2 AND 13326 13325 13324;
  G2 XOR 13324 26507 26508; G2 XOR 26571 26508 1215; G2 XOR 1215 16995 26383; G2 XOR 26635 26508 13323;
  G2 XOR 16994 26508 13322; G2 AND 13323 13322 13321; G2 XOR 13321 26508 26509; G2 XOR 26572 26509 1214;
  G2 XOR 1214 16996 26384; G2 XOR 26636 26509 13320; G2 XOR 16995 26509 13319; G2 AND 13320 13319 13318;
  G2 XOR 13318 26509 26510; G2 XOR 26573 26510 1213; G2 XOR 1213 16997 26385; G2 XOR 26637 26510 13317;
  G2 XOR 16996 26510 13316; G2 AND 13317 13316 13315; G2 XOR 13315 26510 26511; G2 XOR 26574 26511 1212;
  G2 XOR 1212 16998 26386; G2 XOR 26638 26511 13314; G2 XOR 16997 26511 13313; G2 AND 13314 13313 13312;
  G2 XOR 13312 26511 26512; G2 XOR 26575 26512 1211; G2 XOR 1211 16999 26387; G2 XOR 26639 26512 13311;
  G2 XOR 16998 26512 13310; G2 AND 13311 13310 13309; G2 XOR 13309 26512 26513; G2 XOR 26576 26513 1210;
  G2 XOR 1210 17000 26388; G2 XOR 26640 26513 13308; G2 XOR 16999 26513 13307; G2 AND 13308 13307 13306;
  G2 XOR 13306 26513 26514; G2 XOR 26577 26514 1209; G2 XOR 1209 17001 26389; G2 XOR 26641 26514 13305;
  G2 XOR 17000 26514 13304; G2 AND 13305 13304 13303; G2 XOR 13303 26514 26515; G2 XOR 26578 26515 1208;
  G2 XOR 1208 17002 26390; G2 XOR 26642 26515 13302; G2 XOR 17001 26515 13301; G2 AND 13302 13301 13300;
  G2 XOR 13300 26515 26516; G2 XOR 26579 26516 1207; G2 XOR 1207 17003 26391; G2 XOR 26643 26516 13299;
  G2 XOR 17002 26516 13298; G2 AND 13299 13298 13297; G2 XOR 13297 26516 26517; G2 XOR 26580 26517 1206;
  G2 XOR 1206 17004 26392; G2 XOR 26644 26517 13296; G2 XOR 17003 26517 13295; G2 AND 13296 13295 13294;
  G2 XOR 13294 26517 26518; G2 XOR 26581 26518 1205; G2 XOR 1205 17005 26393; G2 XOR 26645 26518 13293;
  G2 XOR 17004 26518 13292; G2 AND 13293 13292 13291; G2 XOR 13291 26518 26519; G2 XOR 26582 26519 1204;
  G2 XOR 1204 17006 26394; G2 XOR 26646 26519 13290; G2 XOR 17005 26519 13289; G2 AND 13290 13289 13288;
  G2 XOR 13288 26519 26520; G2 XOR 26583 26520 1203; G2 XOR 1203 17007 26395; G2 XOR 26647 26520 13287;
  G2 XOR 17006 26520 13286; G2 AND 13287 13286 13285; G2 XOR 13285 26520 26521; G2 XOR 26584 26521 1202;
  G2 XOR 1202 17008 26396; G2 XOR 26648 26521 13284; G2 XOR 17007 26521 13283; G2 AND 13284 13283 13282;
  G2 XOR 13282 26521 26522; G2 XOR 26585 26522 1201; G2 XOR 1201 17009 26397; G2 XOR 26649 26522 13281;
  G2 XOR 17008 26522 13280; G2 AND 13281 13280 13279; G2 XOR 13279 26522 26523; G2 XOR 26586 26523 146;
  G1 INV 146 16676; G2 XOR 16865 16676 26398; G2 XOR 1263 16676 26399; G2 XOR 1262 16676 26400;
  G2 XOR 1261 16676 26401; G2 XOR 1260 16676 26402; G2 XOR 1259 16676 26403; G2 XOR 1258 16676 26404;
  G2 XOR 1257 16676 26405; G2 XOR 1256 16676 26406; G2 XOR 1255 16676 26407; G2 XOR 1254 16676 26408;
  G2 XOR 1253 16676 26409; G2 XOR 1252 16676 26410; G2 XOR 1251 16676 26411; G2 XOR 1250 16676 26412;
  G2 XOR 1249 16676 26413; G2 XOR 1248 16676 26414; G2 XOR 1247 16676 26415; G2 XOR 1246 16676 26416;
  G2 XOR 1245 16676 26417; G2 XOR 1244 16676 26418; G2 XOR 1243 16676 26419; G2 XOR 1242 16676 26420;
  G2 XOR 1241 16676 26421; G2 XOR 1240 16676 26422; G2 XOR 1239 16676 26423; G2 XOR 1238 16676 26424;
  G2 XOR 1237 16676 26425; G2 XOR 1236 16676 26426; G2 XOR 1235 16676 26427; G2 XOR 1234 16676 26428;
  G2 XOR 1233 16676 26429; G2 XOR 1232 16676 26430; G2 XOR 1231 16676 26431; G2 XOR 1230 16676 26432;
  G2 XOR 1229 16676 26433; G2 XOR 1228 16676 26434; G2 XOR 1227 16676 26435; G2 XOR 1226 16676 26436;
  G2 XOR 1225 16676 26437; G2 XOR 1224 16676 26438; G2 XOR 1223 16676 26439; G2 XOR 1222 16676 26440;
  G2 XOR 1221 16676 26441; G2 XOR 1220 16676 26442; G2 XOR 1219 16676 26443; G2 XOR 1218 16676 26444;
  G2 XOR 1217 16676 26445; G2 XOR 1216 16676 26446; G2 XOR 1215 16676 26447; G2 XOR 1214 16676 26448;
  G2 XOR 1213 16676 26449; G2 XOR 1212 16676 26450; G2 XOR 1211 16676 26451; G2 XOR 1210 16676 26452;
  G2 XOR 1209 16676 26453; G2 XOR 1208 16676 26454; G2 XOR 1207 16676 26455; G2 XOR 1206 16676 26456;
  G2 XOR 1205 16676 26457; G2 XOR 1204 16676 26458; G2 XOR 1203 16676 26459; G2 XOR 1202 16676 26460;
  G2 AND 26398 16946 26272; G2 XOR 26335 26272 1325; G2 XOR 1325 16948 26147; G2 XOR 26399 26272 13278;
  G2 XOR 16947 26272 13277; G2 AND 13278 13277 13276; G2 XOR 13276 26272 26273; G2 XOR 26336 26273 1324;
  G2 XOR 1324 16949 26148; G2 XOR 26400 26273 13275; G2 XOR 16948 26273 13274; G2 AND 13275 13274 13273;
  G2 XOR 13273 26273 26274; G2 XOR 26337 26274 1323; G2 XOR 1323 16950 26149; G2 XOR 26401 26274 13272;
  G2 XOR 16949 26274 13271; G2 AND 13272 13271 13270; G2 XOR 13270 26274 26275; G2 XOR 26338 26275 1322;
  G2 XOR 1322 16951 26150; G2 XOR 26402 26275 13269; G2 XOR 16950 26275 13268; G2 AND 13269 13268 13267;
  G2 XOR 13267 26275 26276; G2 XOR 26339 26276 1321; G2 XOR 1321 16952 26151; G2 XOR 26403 26276 13266;
  G2 XOR 16951 26276 13265; G2 AND 13266 13265 13264; G2 XOR 13264 26276 26277; G2 XOR 26340 26277 1320;
  G2 XOR 1320 16953 26152; G2 XOR 26404 26277 13263; G2 XOR 16952 26277 13262; G2 AND 13263 13262 13261;
  G2 XOR 13261 26277 26278; G2 XOR 26341 26278 1319; G2 XOR 1319 16954 26153; G2 XOR 26405 26278 13260;
  G2 XOR 16953 26278 13259; G2 AND 13260 13259 13258; G2 XOR 13258 26278 26279; G2 XOR 26342 26279 1318;
  G2 XOR 1318 16955 26154; G2 XOR 26406 26279 13257; G2 XOR 16954 26279 13256; G2 AND 13257 13256 13255;
  G2 XOR 13255 26279 26280; G2 XOR 26343 26280 1317; G2 XOR 1317 16956 26155; G2 XOR 26407 26280 13254;
  G2 XOR 16955 26280 13253; G2 AND 13254 13253 13252; G2 XOR 13252 26280 26281; G2 XOR 26344 26281 1316;
  G2 XOR 1316 16957 26156; G2 XOR 26408 26281 13251; G2 XOR 16956 26281 13250; G2 AND 13251 13250 13249;
  G2 XOR 13249 26281 26282; G2 XOR 26345 26282 1315; G2 XOR 1315 16958 26157; G2 XOR 26409 26282 13248;
  G2 XOR 16957 26282 13247; G2 AND 13248 13247 13246; G2 XOR 13246 26282 26283; G2 XOR 26346 26283 1314;
  G2 XOR 1314 16959 26158; G2 XOR 26410 26283 13245; G2 XOR 16958 26283 13244; G2 AND 13245 13244 13243;
  G2 XOR 13243 26283 26284; G2 XOR 26347 26284 1313; G2 XOR 1313 16960 26159; G2 XOR 26411 26284 13242;
  G2 XOR 16959 26284 13241; G2 AND 13242 13241 13240; G2 XOR 13240 26284 26285; G2 XOR 26348 26285 1312;
  G2 XOR 1312 16961 26160; G2 XOR 26412 26285 13239; G2 XOR 16960 26285 13238; G2 AND 13239 13238 13237;
  G2 XOR 13237 26285 26286; G2 XOR 26349 26286 1311; G2 XOR 1311 16962 26161; G2 XOR 26413 26286 13236;
  G2 XOR 16961 26286 13235; G2 AND 13236 13235 13234; G2 XOR 13234 26286 26287; G2 XOR 26350 26287 1310;
  G2 XOR 1310 16963 26162; G2 XOR 26414 26287 13233; G2 XOR 16962 26287 13232; G2 AND 13233 13232 13231;
  G2 XOR 13231 26287 26288; G2 XOR 26351 26288 1309; G2 XOR 1309 16964 26163; G2 XOR 26415 26288 13230;
  G2 XOR 16963 26288 13229; G2 AND 13230 13229 13228; G2 XOR 13228 26288 26289; G2 XOR 26352 26289 1308;
  G2 XOR 1308 16965 26164; G2 XOR 26416 26289 13227; G2 XOR 16964 26289 13226; G2 AND 13227 13226 13225;
  G2 XOR 13225 26289 26290; G2 XOR 26353 26290 1307; G2 XOR 1307 16966 26165; G2 XOR 26417 26290 13224;
  G2 XOR 16965 26290 13223; G2 AND 13224 13223 13222; G2 XOR 13222 26290 26291; G2 XOR 26354 26291 1306;
  G2 XOR 1306 16967 26166; G2 XOR 26418 26291 13221; G2 XOR 16966 26291 13220; G2 AND 13221 13220 13219;
  G2 XOR 13219 26291 26292; G2 XOR 26355 26292 1305; G2 XOR 1305 16968 26167; G2 XOR 26419 26292 13218;
  G2 XOR 16967 26292 13217; G2 AND 13218 13217 13216; G2 XOR 13216 26292 26293; G2 XOR 26356 26293 1304;
  G2 XOR 1304 16969 26168; G2 XOR 26420 26293 13215; G2 XOR 16968 26293 13214; G2 AND 13215 13214 13213;
  G2 XOR 13213 26293 26294; G2 XOR 26357 26294 1303; G2 XOR 1303 16970 26169; G2 XOR 26421 26294 13212;
  G2 XOR 16969 26294 13211; G2 AND 13212 13211 13210; G2 XOR 13210 26294 26295; G2 XOR 26358 26295 1302;
  G2 XOR 1302 16971 26170; G2 XOR 26422 26295 13209; G2 XOR 16970 26295 13208; G2 AND 13209 13208 13207;
  G2 XOR 13207 26295 26296; G2 XOR 26359 26296 1301; G2 XOR 1301 16972 26171; G2 XOR 26423 26296 13206;
  G2 XOR 16971 26296 13205; G2 AND 13206 13205 13204; G2 XOR 13204 26296 26297; G2 XOR 26360 26297 1300;
  G2 XOR 1300 16973 26172; G2 XOR 26424 26297 13203; G2 XOR 16972 26297 13202; G2 AND 13203 13202 13201;
  G2 XOR 13201 26297 26298; G2 XOR 26361 26298 1299; G2 XOR 1299 16974 26173; G2 XOR 26425 26298 13200;
  G2 XOR 16973 26298 13199; G2 AND 13200 13199 13198; G2 XOR 13198 26298 26299; G2 XOR 26362 26299 1298;
  G2 XOR 1298 16975 26174; G2 XOR 26426 26299 13197; G2 XOR 16974 26299 13196; G2 AND 13197 13196 13195;
  G2 XOR 13195 26299 26300; G2 XOR 26363 26300 1297; G2 XOR 1297 16976 26175; G2 XOR 26427 26300 13194;
  G2 XOR 16975 26300 13193; G2 AND 13194 13193 13192; G2 XOR 13192 26300 26301; G2 XOR 26364 26301 1296;
  G2 XOR 1296 16977 26176; G2 XOR 26428 26301 13191; G2 XOR 16976 26301 13190; G2 AND 13191 13190 13189;
  G2 XOR 13189 26301 26302; G2 XOR 26365 26302 1295; G2 XOR 1295 16978 26177; G2 XOR 26429 26302 13188;
  G2 XOR 16977 26302 13187; G2 AND 13188 13187 13186; G2 XOR 13186 26302 26303; G2 XOR 26366 26303 1294;
  G2 XOR 1294 16979 26178; G2 XOR 26430 26303 13185; G2 XOR 16978 26303 13184; G2 AND 13185 13184 13183;
  G2 XOR 13183 26303 26304; G2 XOR 26367 26304 1293; G2 XOR 1293 16980 26179; G2 XOR 26431 26304 13182;
  G2 XOR 16979 26304 13181; G2 AND 13182 13181 13180; G2 XOR 13180 26304 26305; G2 XOR 26368 26305 1292;
  G2 XOR 1292 16981 26180; G2 XOR 26432 26305 13179; G2 XOR 16980 26305 13178; G2 AND 13179 13178 13177;
  G2 XOR 13177 26305 26306; G2 XOR 26369 26306 1291; G2 XOR 1291 16982 26181; G2 XOR 26433 26306 13176;
  G2 XOR 16981 26306 13175; G2 AND 13176 13175 13174; G2 XOR 13174 26306 26307; G2 XOR 26370 26307 1290;
  G2 XOR 1290 16983 26182; G2 XOR 26434 26307 13173; G2 XOR 16982 26307 13172; G2 AND 13173 13172 13171;
  G2 XOR 13171 26307 26308; G2 XOR 26371 26308 1289; G2 XOR 1289 16984 26183; G2 XOR 26435 26308 13170;
  G2 XOR 16983 26308 13169; G2 AND 13170 13169 13168; G2 XOR 13168 26308 26309; G2 XOR 26372 26309 1288;
  G2 XOR 1288 16985 26184; G2 XOR 26436 26309 13167; G2 XOR 16984 26309 13166; G2 AND 13167 13166 13165;
  G2 XOR 13165 26309 26310; G2 XOR 26373 26310 1287; G2 XOR 1287 16986 26185; G2 XOR 26437 26310 13164;
  G2 XOR 16985 26310 13163; G2 AND 13164 13163 13162; G2 XOR 13162 26310 26311; G2 XOR 26374 26311 1286;
  G2 XOR 1286 16987 26186; G2 XOR 26438 26311 13161; G2 XOR 16986 26311 13160; G2 AND 13161 13160 13159;
  G2 XOR 13159 26311 26312; G2 XOR 26375 26312 1285; G2 XOR 1285 16988 26187; G2 XOR 26439 26312 13158;
  G2 XOR 16987 26312 13157; G2 AND 13158 13157 13156; G2 XOR 13156 26312 26313; G2 XOR 26376 26313 1284;
  G2 XOR 1284 16989 26188; G2 XOR 26440 26313 13155; G2 XOR 16988 26313 13154; G2 AND 13155 13154 13153;
  G2 XOR 13153 26313 26314; G2 XOR 26377 26314 1283; G2 XOR 1283 16990 26189; G2 XOR 26441 26314 13152;
  G2 XOR 16989 26314 13151; G2 AND 13152 13151 13150; G2 XOR 13150 26314 26315; G2 XOR 26378 26315 1282;
  G2 XOR 1282 16991 26190; G2 XOR 26442 26315 13149; G2 XOR 16990 26315 13148; G2 AND 13149 13148 13147;
  G2 XOR 13147 26315 26316; G2 XOR 26379 26316 1281; G2 XOR 1281 16992 26191; G2 XOR 26443 26316 13146;
  G2 XOR 16991 26316 13145; G2 AND 13146 13145 13144; G2 XOR 13144 26316 26317; G2 XOR 26380 26317 1280;
  G2 XOR 1280 16993 26192; G2 XOR 26444 26317 13143; G2 XOR 16992 26317 13142; G2 AND 13143 13142 13141;
  G2 XOR 13141 26317 26318; G2 XOR 26381 26318 1279; G2 XOR 1279 16994 26193; G2 XOR 26445 26318 13140;
  G2 XOR 16993 26318 13139; G2 AND 13140 13139 13138; G2 XOR 13138 26318 26319; G2 XOR 26382 26319 1278;
  G2 XOR 1278 16995 26194; G2 XOR 26446 26319 13137; G2 XOR 16994 26319 13136; G2 AND 13137 13136 13135;
  G2 XOR 13135 26319 26320; G2 XOR 26383 26320 1277; G2 XOR 1277 16996 26195; G2 XOR 26447 26320 13134;
  G2 XOR 16995 26320 13133; G2 AND 13134 13133 13132; G2 XOR 13132 26320 26321; G2 XOR 26384 26321 1276;
  G2 XOR 1276 16997 26196; G2 XOR 26448 26321 13131; G2 XOR 16996 26321 13130; G2 AND 13131 13130 13129;
  G2 XOR 13129 26321 26322; G2 XOR 26385 26322 1275; G2 XOR 1275 16998 26197; G2 XOR 26449 26322 13128;
  G2 XOR 16997 26322 13127; G2 AND 13128 13127 13126; G2 XOR 13126 26322 26323; G2 XOR 26386 26323 1274;
  G2 XOR 1274 16999 26198; G2 XOR 26450 26323 13125; G2 XOR 16998 26323 13124; G2 AND 13125 13124 13123;
  G2 XOR 13123 26323 26324; G2 XOR 26387 26324 1273; G2 XOR 1273 17000 26199; G2 XOR 26451 26324 13122;
  G2 XOR 16999 26324 13121; G2 AND 13122 13121 13120; G2 XOR 13120 26324 26325; G2 XOR 26388 26325 1272;
  G2 XOR 1272 17001 26200; G2 XOR 26452 26325 13119; G2 XOR 17000 26325 13118; G2 AND 13119 13118 13117;
  G2 XOR 13117 26325 26326; G2 XOR 26389 26326 1271; G2 XOR 1271 17002 26201; G2 XOR 26453 26326 13116;
  G2 XOR 17001 26326 13115; G2 AND 13116 13115 13114; G2 XOR 13114 26326 26327; G2 XOR 26390 26327 1270;
  G2 XOR 1270 17003 26202; G2 XOR 26454 26327 13113; G2 XOR 17002 26327 13112; G2 AND 13113 13112 13111;
  G2 XOR 13111 26327 26328; G2 XOR 26391 26328 1269; G2 XOR 1269 17004 26203; G2 XOR 26455 26328 13110;
  G2 XOR 17003 26328 13109; G2 AND 13110 13109 13108; G2 XOR 13108 26328 26329; G2 XOR 26392 26329 1268;
  G2 XOR 1268 17005 26204; G2 XOR 26456 26329 13107; G2 XOR 17004 26329 13106; G2 AND 13107 13106 13105;
  G2 XOR 13105 26329 26330; G2 XOR 26393 26330 1267; G2 XOR 1267 17006 26205; G2 XOR 26457 26330 13104;
  G2 XOR 17005 26330 13103; G2 AND 13104 13103 13102; G2 XOR 13102 26330 26331; G2 XOR 26394 26331 1266;
  G2 XOR 1266 17007 26206; G2 XOR 26458 26331 13101; G2 XOR 17006 26331 13100; G2 AND 13101 13100 13099;
  G2 XOR 13099 26331 26332; G2 XOR 26395 26332 1265; G2 XOR 1265 17008 26207; G2 XOR 26459 26332 13098;
  G2 XOR 17007 26332 13097; G2 AND 13098 13097 13096; G2 XOR 13096 26332 26333; G2 XOR 26396 26333 1264;
  G2 XOR 1264 17009 26208; G2 XOR 26460 26333 13095; G2 XOR 17008 26333 13094; G2 AND 13095 13094 13093;
  G2 XOR 13093 26333 26334; G2 XOR 26397 26334 147; G2 AND 16676 4535 17560; G1 INV 147 16675;
  G2 XOR 16864 16675 26209; G2 XOR 1326 16675 26210; G2 XOR 1325 16675 26211; G2 XOR 1324 16675 26212;
  G2 XOR 1323 16675 26213; G2 XOR 1322 16675 26214; G2 XOR 1321 16675 26215; G2 XOR 1320 16675 26216;
  G2 XOR 1319 16675 26217; G2 XOR 1318 16675 26218; G2 XOR 1317 16675 26219; G2 XOR 1316 16675 26220;
  G2 XOR 1315 16675 26221; G2 XOR 1314 16675 26222; G2 XOR 1313 16675 26223; G2 XOR 1312 16675 26224;
  G2 XOR 1311 16675 26225; G2 XOR 1310 16675 26226; G2 XOR 1309 16675 26227; G2 XOR 1308 16675 26228;
  G2 XOR 1307 16675 26229; G2 XOR 1306 16675 26230; G2 XOR 1305 16675 26231; G2 XOR 1304 16675 26232;
  G2 XOR 1303 16675 26233; G2 XOR 1302 16675 26234; G2 XOR 1301 16675 26235; G2 XOR 1300 16675 26236;
  G2 XOR 1299 16675 26237; G2 XOR 1298 16675 26238; G2 XOR 1297 16675 26239; G2 XOR 1296 16675 26240;
  G2 XOR 1295 16675 26241; G2 XOR 1294 16675 26242; G2 XOR 1293 16675 26243; G2 XOR 1292 16675 26244;
  G2 XOR 1291 16675 26245; G2 XOR 1290 16675 26246; G2 XOR 1289 16675 26247; G2 XOR 1288 16675 26248;
  G2 XOR 1287 16675 26249; G2 XOR 1286 16675 26250; G2 XOR 1285 16675 26251; G2 XOR 1284 16675 26252;
  G2 XOR 1283 16675 26253; G2 XOR 1282 16675 26254; G2 XOR 1281 16675 26255; G2 XOR 1280 16675 26256;
  G2 XOR 1279 16675 26257; G2 XOR 1278 16675 26258; G2 XOR 1277 16675 26259; G2 XOR 1276 16675 26260;
  G2 XOR 1275 16675 26261; G2 XOR 1274 16675 26262; G2 XOR 1273 16675 26263; G2 XOR 1272 16675 26264;
  G2 XOR 1271 16675 26265; G2 XOR 1270 16675 26266; G2 XOR 1269 16675 26267; G2 XOR 1268 16675 26268;
  G2 XOR 1267 16675 26269; G2 XOR 1266 16675 26270; G2 XOR 1265 16675 26271; G2 AND 26209 16946 26083;
  G2 XOR 26146 26083 1388; G2 XOR 1388 16948 25958; G2 XOR 26210 26083 13092; G2 XOR 16947 26083 13091;
  G2 AND 13092 13091 13090; G2 XOR 13090 26083 26084; G2 XOR 26147 26084 1387; G2 XOR 1387 16949 25959;
  G2 XOR 26211 26084 13089; G2 XOR 16948 26084 13088; G2 AND 13089 13088 13087; G2 XOR 13087 26084 26085;
  G2 XOR 26148 26085 1386; G2 XOR 1386 16950 25960; G2 XOR 26212 26085 13086; G2 XOR 16949 26085 13085;
  G2 AND 13086 13085 13084; G2 XOR 13084 26085 26086; G2 XOR 26149 26086 1385; G2 XOR 1385 16951 25961;
  G2 XOR 26213 26086 13083; G2 XOR 16950 26086 13082; G2 AND 13083 13082 13081; G2 XOR 13081 26086 26087;
  G2 XOR 26150 26087 1384; G2 XOR 1384 16952 25962; G2 XOR 26214 26087 13080; G2 XOR 16951 26087 13079;
  G2 AND 13080 13079 13078; G2 XOR 13078 26087 26088; G2 XOR 26151 26088 1383; G2 XOR 1383 16953 25963;
  G2 XOR 26215 26088 13077; G2 XOR 16952 26088 13076; G2 AND 13077 13076 13075; G2 XOR 13075 26088 26089;
  G2 XOR 26152 26089 1382; G2 XOR 1382 16954 25964; G2 XOR 26216 26089 13074; G2 XOR 16953 26089 13073;
  G2 AND 13074 13073 13072; G2 XOR 13072 26089 26090; G2 XOR 26153 26090 1381; G2 XOR 1381 16955 25965;
  G2 XOR 26217 26090 13071; G2 XOR 16954 26090 13070; G2 AND 13071 13070 13069; G2 XOR 13069 26090 26091;
  G2 XOR 26154 26091 1380; G2 XOR 1380 16956 25966; G2 XOR 26218 26091 13068; G2 XOR 16955 26091 13067;
  G2 AND 13068 13067 13066; G2 XOR 13066 26091 26092; G2 XOR 26155 26092 1379; G2 XOR 1379 16957 25967;
  G2 XOR 26219 26092 13065; G2 XOR 16956 26092 13064; G2 AND 13065 13064 13063; G2 XOR 13063 26092 26093;
  G2 XOR 26156 26093 1378; G2 XOR 1378 16958 25968; G2 XOR 26220 26093 13062; G2 XOR 16957 26093 13061;
  G2 AND 13062 13061 13060; G2 XOR 13060 26093 26094; G2 XOR 26157 26094 1377; G2 XOR 1377 16959 25969;
  G2 XOR 26221 26094 13059; G2 XOR 16958 26094 13058; G2 AND 13059 13058 13057; G2 XOR 13057 26094 26095;
  G2 XOR 26158 26095 1376; G2 XOR 1376 16960 25970; G2 XOR 26222 26095 13056; G2 XOR 16959 26095 13055;
  G2 AND 13056 13055 13054; G2 XOR 13054 26095 26096; G2 XOR 26159 26096 1375; G2 XOR 1375 16961 25971;
  G2 XOR 26223 26096 13053; G2 XOR 16960 26096 13052; G2 AND 13053 13052 13051; G2 XOR 13051 26096 26097;
  G2 XOR 26160 26097 1374; G2 XOR 1374 16962 25972; G2 XOR 26224 26097 13050; G2 XOR 16961 26097 13049;
  G2 AND 13050 13049 13048; G2 XOR 13048 26097 26098; G2 XOR 26161 26098 1373; G2 XOR 1373 16963 25973;
  G2 XOR 26225 26098 13047; G2 XOR 16962 26098 13046; G2 AND 13047 13046 13045; G2 XOR 13045 26098 26099;
  G2 XOR 26162 26099 1372; G2 XOR 1372 16964 25974; G2 XOR 26226 26099 13044; G2 XOR 16963 26099 13043;
  G2 AND 13044 13043 13042; G2 XOR 13042 26099 26100; G2 XOR 26163 26100 1371; G2 XOR 1371 16965 25975;
  G2 XOR 26227 26100 13041; G2 XOR 16964 26100 13040; G2 AND 13041 13040 13039; G2 XOR 13039 26100 26101;
  G2 XOR 26164 26101 1370; G2 XOR 1370 16966 25976; G2 XOR 26228 26101 13038; G2 XOR 16965 26101 13037;
  G2 AND 13038 13037 13036; G2 XOR 13036 26101 26102; G2 XOR 26165 26102 1369; G2 XOR 1369 16967 25977;
  G2 XOR 26229 26102 13035; G2 XOR 16966 26102 13034; G2 AND 13035 13034 13033; G2 XOR 13033 26102 26103;
  G2 XOR 26166 26103 1368; G2 XOR 1368 16968 25978; G2 XOR 26230 26103 13032; G2 XOR 16967 26103 13031;
  G2 AND 13032 13031 13030; G2 XOR 13030 26103 26104; G2 XOR 26167 26104 1367; G2 XOR 1367 16969 25979;
  G2 XOR 26231 26104 13029; G2 XOR 16968 26104 13028; G2 AND 13029 13028 13027; G2 XOR 13027 26104 26105;
  G2 XOR 26168 26105 1366; G2 XOR 1366 16970 25980; G2 XOR 26232 26105 13026; G2 XOR 16969 26105 13025;
  G2 AND 13026 13025 13024; G2 XOR 13024 26105 26106; G2 XOR 26169 26106 1365; G2 XOR 1365 16971 25981;
  G2 XOR 26233 26106 13023; G2 XOR 16970 26106 13022; G2 AND 13023 13022 13021; G2 XOR 13021 26106 26107;
  G2 XOR 26170 26107 1364; G2 XOR 1364 16972 25982; G2 XOR 26234 26107 13020; G2 XOR 16971 26107 13019;
  G2 AND 13020 13019 13018; G2 XOR 13018 26107 26108; G2 XOR 26171 26108 1363; G2 XOR 1363 16973 25983;
  G2 XOR 26235 26108 13017; G2 XOR 16972 26108 13016; G2 AND 13017 13016 13015; G2 XOR 13015 26108 26109;
  G2 XOR 26172 26109 1362; G2 XOR 1362 16974 25984; G2 XOR 26236 26109 13014; G2 XOR 16973 26109 13013;
  G2 AND 13014 13013 13012; G2 XOR 13012 26109 26110; G2 XOR 26173 26110 1361; G2 XOR 1361 16975 25985;
  G2 XOR 26237 26110 13011; G2 XOR 16974 26110 13010; G2 AND 13011 13010 13009; G2 XOR 13009 26110 26111;
  G2 XOR 26174 26111 1360; G2 XOR 1360 16976 25986; G2 XOR 26238 26111 13008; G2 XOR 16975 26111 13007;
  G2 AND 13008 13007 13006; G2 XOR 13006 26111 26112; G2 XOR 26175 26112 1359; G2 XOR 1359 16977 25987;
  G2 XOR 26239 26112 13005; G2 XOR 16976 26112 13004; G2 AND 13005 13004 13003; G2 XOR 13003 26112 26113;
  G2 XOR 26176 26113 1358; G2 XOR 1358 16978 25988; G2 XOR 26240 26113 13002; G2 XOR 16977 26113 13001;
  G2 AND 13002 13001 13000; G2 XOR 13000 26113 26114; G2 XOR 26177 26114 1357; G2 XOR 1357 16979 25989;
  G2 XOR 26241 26114 12999; G2 XOR 16978 26114 12998; G2 AND 12999 12998 12997; G2 XOR 12997 26114 26115;
  G2 XOR 26178 26115 1356; G2 XOR 1356 16980 25990; G2 XOR 26242 26115 12996; G2 XOR 16979 26115 12995;
  G2 AND 12996 12995 12994; G2 XOR 12994 26115 26116; G2 XOR 26179 26116 1355; G2 XOR 1355 16981 25991;
  G2 XOR 26243 26116 12993; G2 XOR 16980 26116 12992; G2 AND 12993 12992 12991; G2 XOR 12991 26116 26117;
  G2 XOR 26180 26117 1354; G2 XOR 1354 16982 25992; G2 XOR 26244 26117 12990; G2 XOR 16981 26117 12989;
  G2 AND 12990 12989 12988; G2 XOR 12988 26117 26118; G2 XOR 26181 26118 1353; G2 XOR 1353 16983 25993;
  G2 XOR 26245 26118 12987; G2 XOR 16982 26118 12986; G2 AND 12987 12986 12985; G2 XOR 12985 26118 26119;
  G2 XOR 26182 26119 1352; G2 XOR 1352 16984 25994; G2 XOR 26246 26119 12984; G2 XOR 16983 26119 12983;
  G2 AND 12984 12983 12982; G2 XOR 12982 26119 26120; G2 XOR 26183 26120 1351; G2 XOR 1351 16985 25995;
  G2 XOR 26247 26120 12981; G2 XOR 16984 26120 12980; G2 AND 12981 12980 12979; G2 XOR 12979 26120 26121;
  G2 XOR 26184 26121 1350; G2 XOR 1350 16986 25996; G2 XOR 26248 26121 12978; G2 XOR 16985 26121 12977;
  G2 AND 12978 12977 12976; G2 XOR 12976 26121 26122; G2 XOR 26185 26122 1349; G2 XOR 1349 16987 25997;
  G2 XOR 26249 26122 12975; G2 XOR 16986 26122 12974; G2 AND 12975 12974 12973; G2 XOR 12973 26122 26123;
  G2 XOR 26186 26123 1348; G2 XOR 1348 16988 25998; G2 XOR 26250 26123 12972; G2 XOR 16987 26123 12971;
  G2 AND 12972 12971 12970; G2 XOR 12970 26123 26124; G2 XOR 26187 26124 1347; G2 XOR 1347 16989 25999;
  G2 XOR 26251 26124 12969; G2 XOR 16988 26124 12968; G2 AND 12969 12968 12967; G2 XOR 12967 26124 26125;
  G2 XOR 26188 26125 1346; G2 XOR 1346 16990 26000; G2 XOR 26252 26125 12966; G2 XOR 16989 26125 12965;
  G2 AND 12966 12965 12964; G2 XOR 12964 26125 26126; G2 XOR 26189 26126 1345; G2 XOR 1345 16991 26001;
  G2 XOR 26253 26126 12963; G2 XOR 16990 26126 12962; G2 AND 12963 12962 12961; G2 XOR 12961 26126 26127;
  G2 XOR 26190 26127 1344; G2 XOR 1344 16992 26002; G2 XOR 26254 26127 12960; G2 XOR 16991 26127 12959;
  G2 AND 12960 12959 12958; G2 XOR 12958 26127 26128; G2 XOR 26191 26128 1343; G2 XOR 1343 16993 26003;
  G2 XOR 26255 26128 12957; G2 XOR 16992 26128 12956; G2 AND 12957 12956 12955; G2 XOR 12955 26128 26129;
  G2 XOR 26192 26129 1342; G2 XOR 1342 16994 26004; G2 XOR 26256 26129 12954; G2 XOR 16993 26129 12953;
  G2 AND 12954 12953 12952; G2 XOR 12952 26129 26130; G2 XOR 26193 26130 1341; G2 XOR 1341 16995 26005;
  G2 XOR 26257 26130 12951; G2 XOR 16994 26130 12950; G2 AND 12951 12950 12949; G2 XOR 12949 26130 26131;
  G2 XOR 26194 26131 1340; G2 XOR 1340 16996 26006; G2 XOR 26258 26131 12948; G2 XOR 16995 26131 12947;
  G2 AND 12948 12947 12946; G2 XOR 12946 26131 26132; G2 XOR 26195 26132 1339; G2 XOR 1339 16997 26007;
  G2 XOR 26259 26132 12945; G2 XOR 16996 26132 12944; G2 AND 12945 12944 12943; G2 XOR 12943 26132 26133;
  G2 XOR 26196 26133 1338; G2 XOR 1338 16998 26008; G2 XOR 26260 26133 12942; G2 XOR 16997 26133 12941;
  G2 AND 12942 12941 12940; G2 XOR 12940 26133 26134; G2 XOR 26197 26134 1337; G2 XOR 1337 16999 26009;
  G2 XOR 26261 26134 12939; G2 XOR 16998 26134 12938; G2 AND 12939 12938 12937; G2 XOR 12937 26134 26135;
  G2 XOR 26198 26135 1336; G2 XOR 1336 17000 26010; G2 XOR 26262 26135 12936; G2 XOR 16999 26135 12935;
  G2 AND 12936 12935 12934; G2 XOR 12934 26135 26136; G2 XOR 26199 26136 1335; G2 XOR 1335 17001 26011;
  G2 XOR 26263 26136 12933; G2 XOR 17000 26136 12932; G2 AND 12933 12932 12931; G2 XOR 12931 26136 26137;
  G2 XOR 26200 26137 1334; G2 XOR 1334 17002 26012; G2 XOR 26264 26137 12930; G2 XOR 17001 26137 12929;
  G2 AND 12930 12929 12928; G2 XOR 12928 26137 26138; G2 XOR 26201 26138 1333; G2 XOR 1333 17003 26013;
  G2 XOR 26265 26138 12927; G2 XOR 17002 26138 12926; G2 AND 12927 12926 12925; G2 XOR 12925 26138 26139;
  G2 XOR 26202 26139 1332; G2 XOR 1332 17004 26014; G2 XOR 26266 26139 12924; G2 XOR 17003 26139 12923;
  G2 AND 12924 12923 12922; G2 XOR 12922 26139 26140; G2 XOR 26203 26140 1331; G2 XOR 1331 17005 26015;
  G2 XOR 26267 26140 12921; G2 XOR 17004 26140 12920; G2 AND 12921 12920 12919; G2 XOR 12919 26140 26141;
  G2 XOR 26204 26141 1330; G2 XOR 1330 17006 26016; G2 XOR 26268 26141 12918; G2 XOR 17005 26141 12917;
  G2 AND 12918 12917 12916; G2 XOR 12916 26141 26142; G2 XOR 26205 26142 1329; G2 XOR 1329 17007 26017;
  G2 XOR 26269 26142 12915; G2 XOR 17006 26142 12914; G2 AND 12915 12914 12913; G2 XOR 12913 26142 26143;
  G2 XOR 26206 26143 1328; G2 XOR 1328 17008 26018; G2 XOR 26270 26143 12912; G2 XOR 17007 26143 12911;
  G2 AND 12912 12911 12910; G2 XOR 12910 26143 26144; G2 XOR 26207 26144 1327; G2 XOR 1327 17009 26019;
  G2 XOR 26271 26144 12909; G2 XOR 17008 26144 12908; G2 AND 12909 12908 12907; G2 XOR 12907 26144 26145;
  G2 XOR 26208 26145 148; G1 INV 148 16674; G2 XOR 16863 16674 26020; G2 XOR 1389 16674 26021;
  G2 XOR 1388 16674 26022; G2 XOR 1387 16674 26023; G2 XOR 1386 16674 26024; G2 XOR 1385 16674 26025;
  G2 XOR 1384 16674 26026; G2 XOR 1383 16674 26027; G2 XOR 1382 16674 26028; G2 XOR 1381 16674 26029;
  G2 XOR 1380 16674 26030; G2 XOR 1379 16674 26031; G2 XOR 1378 16674 26032; G2 XOR 1377 16674 26033;
  G2 XOR 1376 16674 26034; G2 XOR 1375 16674 26035; G2 XOR 1374 16674 26036; G2 XOR 1373 16674 26037;
  G2 XOR 1372 16674 26038; G2 XOR 1371 16674 26039; G2 XOR 1370 16674 26040; G2 XOR 1369 16674 26041;
  G2 XOR 1368 16674 26042; G2 XOR 1367 16674 26043; G2 XOR 1366 16674 26044; G2 XOR 1365 16674 26045;
  G2 XOR 1364 16674 26046; G2 XOR 1363 16674 26047; G2 XOR 1362 16674 26048; G2 XOR 1361 16674 26049;
  G2 XOR 1360 16674 26050; G2 XOR 1359 16674 26051; G2 XOR 1358 16674 26052; G2 XOR 1357 16674 26053;
  G2 XOR 1356 16674 26054; G2 XOR 1355 16674 26055; G2 XOR 1354 16674 26056; G2 XOR 1353 16674 26057;
  G2 XOR 1352 16674 26058; G2 XOR 1351 16674 26059; G2 XOR 1350 16674 26060; G2 XOR 1349 16674 26061;
  G2 XOR 1348 16674 26062; G2 XOR 1347 16674 26063; G2 XOR 1346 16674 26064; G2 XOR 1345 16674 26065;
  G2 XOR 1344 16674 26066; G2 XOR 1343 16674 26067; G2 XOR 1342 16674 26068; G2 XOR 1341 16674 26069;
  G2 XOR 1340 16674 26070; G2 XOR 1339 16674 26071; G2 XOR 1338 16674 26072; G2 XOR 1337 16674 26073;
  G2 XOR 1336 16674 26074; G2 XOR 1335 16674 26075; G2 XOR 1334 16674 26076; G2 XOR 1333 16674 26077;
  G2 XOR 1332 16674 26078; G2 XOR 1331 16674 26079; G2 XOR 1330 16674 26080; G2 XOR 1329 16674 26081;
  G2 XOR 1328 16674 26082; G2 AND 26020 16946 25894; G2 XOR 25957 25894 1451; G2 XOR 1451 16948 25769;
  G2 XOR 26021 25894 12906; G2 XOR 16947 25894 12905; G2 AND 12906 12905 12904; G2 XOR 12904 25894 25895;
  G2 XOR 25958 25895 1450; G2 XOR 1450 16949 25770; G2 XOR 26022 25895 12903; G2 XOR 16948 25895 12902;
  G2 AND 12903 12902 12901; G2 XOR 12901 25895 25896; G2 XOR 25959 25896 1449; G2 XOR 1449 16950 25771;
  G2 XOR 26023 25896 12900; G2 XOR 16949 25896 12899; G2 AND 12900 12899 12898; G2 XOR 12898 25896 25897;
  G2 XOR 25960 25897 1448; G2 XOR 1448 16951 25772; G2 XOR 26024 25897 12897; G2 XOR 16950 25897 12896;
  G2 AND 12897 12896 12895; G2 XOR 12895 25897 25898; G2 XOR 25961 25898 1447; G2 XOR 1447 16952 25773;
  G2 XOR 26025 25898 12894; G2 XOR 16951 25898 12893; G2 AND 12894 12893 12892; G2 XOR 12892 25898 25899;
  G2 XOR 25962 25899 1446; G2 XOR 1446 16953 25774; G2 XOR 26026 25899 12891; G2 XOR 16952 25899 12890;
  G2 AND 12891 12890 12889; G2 XOR 12889 25899 25900; G2 XOR 25963 25900 1445; G2 XOR 1445 16954 25775;
  G2 XOR 26027 25900 12888; G2 XOR 16953 25900 12887; G2 AND 12888 12887 12886; G2 XOR 12886 25900 25901;
  G2 XOR 25964 25901 1444; G2 XOR 1444 16955 25776; G2 XOR 26028 25901 12885; G2 XOR 16954 25901 12884;
  G2 AND 12885 12884 12883; G2 XOR 12883 25901 25902; G2 XOR 25965 25902 1443; G2 XOR 1443 16956 25777;
  G2 XOR 26029 25902 12882; G2 XOR 16955 25902 12881; G2 AND 12882 12881 12880; G2 XOR 12880 25902 25903;
  G2 XOR 25966 25903 1442; G2 XOR 1442 16957 25778; G2 XOR 26030 25903 12879; G2 XOR 16956 25903 12878;
  G2 AND 12879 12878 12877; G2 XOR 12877 25903 25904; G2 XOR 25967 25904 1441; G2 XOR 1441 16958 25779;
  G2 XOR 26031 25904 12876; G2 XOR 16957 25904 12875; G2 AND 12876 12875 12874; G2 XOR 12874 25904 25905;
  G2 XOR 25968 25905 1440; G2 XOR 1440 16959 25780; G2 XOR 26032 25905 12873; G2 XOR 16958 25905 12872;
  G2 AND 12873 12872 12871; G2 XOR 12871 25905 25906; G2 XOR 25969 25906 1439; G2 XOR 1439 16960 25781;
  G2 XOR 26033 25906 12870; G2 XOR 16959 25906 12869; G2 AND 12870 12869 12868; G2 XOR 12868 25906 25907;
  G2 XOR 25970 25907 1438; G2 XOR 1438 16961 25782; G2 XOR 26034 25907 12867; G2 XOR 16960 25907 12866;
  G2 AND 12867 12866 12865; G2 XOR 12865 25907 25908; G2 XOR 25971 25908 1437; G2 XOR 1437 16962 25783;
  G2 XOR 26035 25908 12864; G2 XOR 16961 25908 12863; G2 AND 12864 12863 12862; G2 XOR 12862 25908 25909;
  G2 XOR 25972 25909 1436; G2 XOR 1436 16963 25784; G2 XOR 26036 25909 12861; G2 XOR 16962 25909 12860;
  G2 AND 12861 12860 12859; G2 XOR 12859 25909 25910; G2 XOR 25973 25910 1435; G2 XOR 1435 16964 25785;
  G2 XOR 26037 25910 12858; G2 XOR 16963 25910 12857; G2 AND 12858 12857 12856; G2 XOR 12856 25910 25911;
  G2 XOR 25974 25911 1434; G2 XOR 1434 16965 25786; G2 XOR 26038 25911 12855; G2 XOR 16964 25911 12854;
  G2 AND 12855 12854 12853; G2 XOR 12853 25911 25912; G2 XOR 25975 25912 1433; G2 XOR 1433 16966 25787;
  G2 XOR 26039 25912 12852; G2 XOR 16965 25912 12851; G2 AND 12852 12851 12850; G2 XOR 12850 25912 25913;
  G2 XOR 25976 25913 1432; G2 XOR 1432 16967 25788; G2 XOR 26040 25913 12849; G2 XOR 16966 25913 12848;
  G2 AND 12849 12848 12847; G2 XOR 12847 25913 25914; G2 XOR 25977 25914 1431; G2 XOR 1431 16968 25789;
  G2 XOR 26041 25914 12846; G2 XOR 16967 25914 12845; G2 AND 12846 12845 12844; G2 XOR 12844 25914 25915;
  G2 XOR 25978 25915 1430; G2 XOR 1430 16969 25790; G2 XOR 26042 25915 12843; G2 XOR 16968 25915 12842;
  G2 AND 12843 12842 12841; G2 XOR 12841 25915 25916; G2 XOR 25979 25916 1429; G2 XOR 1429 16970 25791;
  G2 XOR 26043 25916 12840; G2 XOR 16969 25916 12839; G2 AND 12840 12839 12838; G2 XOR 12838 25916 25917;
  G2 XOR 25980 25917 1428; G2 XOR 1428 16971 25792; G2 XOR 26044 25917 12837; G2 XOR 16970 25917 12836;
  G2 AND 12837 12836 12835; G2 XOR 12835 25917 25918; G2 XOR 25981 25918 1427; G2 XOR 1427 16972 25793;
  G2 XOR 26045 25918 12834; G2 XOR 16971 25918 12833; G2 AND 12834 12833 12832; G2 XOR 12832 25918 25919;
  G2 XOR 25982 25919 1426; G2 XOR 1426 16973 25794; G2 XOR 26046 25919 12831; G2 XOR 16972 25919 12830;
  G2 AND 12831 12830 12829; G2 XOR 12829 25919 25920; G2 XOR 25983 25920 1425; G2 XOR 1425 16974 25795;
  G2 XOR 26047 25920 12828; G2 XOR 16973 25920 12827; G2 AND 12828 12827 12826; G2 XOR 12826 25920 25921;
  G2 XOR 25984 25921 1424; G2 XOR 1424 16975 25796; G2 XOR 26048 25921 12825; G2 XOR 16974 25921 12824;
  G2 AND 12825 12824 12823; G2 XOR 12823 25921 25922; G2 XOR 25985 25922 1423; G2 XOR 1423 16976 25797;
  G2 XOR 26049 25922 12822; G2 XOR 16975 25922 12821; G2 AND 12822 12821 12820; G2 XOR 12820 25922 25923;
  G2 XOR 25986 25923 1422; G2 XOR 1422 16977 25798; G2 XOR 26050 25923 12819; G2 XOR 16976 25923 12818;
  G2 AND 12819 12818 12817; G2 XOR 12817 25923 25924; G2 XOR 25987 25924 1421; G2 XOR 1421 16978 25799;
  G2 XOR 26051 25924 12816; G2 XOR 16977 25924 12815; G2 AND 12816 12815 12814; G2 XOR 12814 25924 25925;
  G2 XOR 25988 25925 1420; G2 XOR 1420 16979 25800; G2 XOR 26052 25925 12813; G2 XOR 16978 25925 12812;
  G2 AND 12813 12812 12811; G2 XOR 12811 25925 25926; G2 XOR 25989 25926 1419; G2 XOR 1419 16980 25801;
  G2 XOR 26053 25926 12810; G2 XOR 16979 25926 12809; G2 AND 12810 12809 12808; G2 XOR 12808 25926 25927;
  G2 XOR 25990 25927 1418; G2 XOR 1418 16981 25802; G2 XOR 26054 25927 12807; G2 XOR 16980 25927 12806;
  G2 AND 12807 12806 12805; G2 XOR 12805 25927 25928; G2 XOR 25991 25928 1417; G2 XOR 1417 16982 25803;
  G2 XOR 26055 25928 12804; G2 XOR 16981 25928 12803; G2 AND 12804 12803 12802; G2 XOR 12802 25928 25929;
  G2 XOR 25992 25929 1416; G2 XOR 1416 16983 25804; G2 XOR 26056 25929 12801; G2 XOR 16982 25929 12800;
  G2 AND 12801 12800 12799; G2 XOR 12799 25929 25930; G2 XOR 25993 25930 1415; G2 XOR 1415 16984 25805;
  G2 XOR 26057 25930 12798; G2 XOR 16983 25930 12797; G2 AND 12798 12797 12796; G2 XOR 12796 25930 25931;
  G2 XOR 25994 25931 1414; G2 XOR 1414 16985 25806; G2 XOR 26058 25931 12795; G2 XOR 16984 25931 12794;
  G2 AND 12795 12794 12793; G2 XOR 12793 25931 25932; G2 XOR 25995 25932 1413; G2 XOR 1413 16986 25807;
  G2 XOR 26059 25932 12792; G2 XOR 16985 25932 12791; G2 AND 12792 12791 12790; G2 XOR 12790 25932 25933;
  G2 XOR 25996 25933 1412; G2 XOR 1412 16987 25808; G2 XOR 26060 25933 12789; G2 XOR 16986 25933 12788;
  G2 AND 12789 12788 12787; G2 XOR 12787 25933 25934; G2 XOR 25997 25934 1411; G2 XOR 1411 16988 25809;
  G2 XOR 26061 25934 12786; G2 XOR 16987 25934 12785; G2 AND 12786 12785 12784; G2 XOR 12784 25934 25935;
  G2 XOR 25998 25935 1410; G2 XOR 1410 16989 25810; G2 XOR 26062 25935 12783; G2 XOR 16988 25935 12782;
  G2 AND 12783 12782 12781; G2 XOR 12781 25935 25936; G2 XOR 25999 25936 1409; G2 XOR 1409 16990 25811;
  G2 XOR 26063 25936 12780; G2 XOR 16989 25936 12779; G2 AND 12780 12779 12778; G2 XOR 12778 25936 25937;
  G2 XOR 26000 25937 1408; G2 XOR 1408 16991 25812; G2 XOR 26064 25937 12777; G2 XOR 16990 25937 12776;
  G2 AND 12777 12776 12775; G2 XOR 12775 25937 25938; G2 XOR 26001 25938 1407; G2 XOR 1407 16992 25813;
  G2 XOR 26065 25938 12774; G2 XOR 16991 25938 12773; G2 AND 12774 12773 12772; G2 XOR 12772 25938 25939;
  G2 XOR 26002 25939 1406; G2 XOR 1406 16993 25814; G2 XOR 26066 25939 12771; G2 XOR 16992 25939 12770;
  G2 AND 12771 12770 12769; G2 XOR 12769 25939 25940; G2 XOR 26003 25940 1405; G2 XOR 1405 16994 25815;
  G2 XOR 26067 25940 12768; G2 XOR 16993 25940 12767; G2 AND 12768 12767 12766; G2 XOR 12766 25940 25941;
  G2 XOR 26004 25941 1404; G2 XOR 1404 16995 25816; G2 XOR 26068 25941 12765; G2 XOR 16994 25941 12764;
  G2 AND 12765 12764 12763; G2 XOR 12763 25941 25942; G2 XOR 26005 25942 1403; G2 XOR 1403 16996 25817;
  G2 XOR 26069 25942 12762; G2 XOR 16995 25942 12761; G2 AND 12762 12761 12760; G2 XOR 12760 25942 25943;
  G2 XOR 26006 25943 1402; G2 XOR 1402 16997 25818; G2 XOR 26070 25943 12759; G2 XOR 16996 25943 12758;
  G2 AND 12759 12758 12757; G2 XOR 12757 25943 25944; G2 XOR 26007 25944 1401; G2 XOR 1401 16998 25819;
  G2 XOR 26071 25944 12756; G2 XOR 16997 25944 12755; G2 AND 12756 12755 12754; G2 XOR 12754 25944 25945;
  G2 XOR 26008 25945 1400; G2 XOR 1400 16999 25820; G2 XOR 26072 25945 12753; G2 XOR 16998 25945 12752;
  G2 AND 12753 12752 12751; G2 XOR 12751 25945 25946; G2 XOR 26009 25946 1399; G2 XOR 1399 17000 25821;
  G2 XOR 26073 25946 12750; G2 XOR 16999 25946 12749; G2 AND 12750 12749 12748; G2 XOR 12748 25946 25947;
  G2 XOR 26010 25947 1398; G2 XOR 1398 17001 25822; G2 XOR 26074 25947 12747; G2 XOR 17000 25947 12746;
  G2 AND 12747 12746 12745; G2 XOR 12745 25947 25948; G2 XOR 26011 25948 1397; G2 XOR 1397 17002 25823;
  G2 XOR 26075 25948 12744; G2 XOR 17001 25948 12743; G2 AND 12744 12743 12742; G2 XOR 12742 25948 25949;
  G2 XOR 26012 25949 1396; G2 XOR 1396 17003 25824; G2 XOR 26076 25949 12741; G2 XOR 17002 25949 12740;
  G2 AND 12741 12740 12739; G2 XOR 12739 25949 25950; G2 XOR 26013 25950 1395; G2 XOR 1395 17004 25825;
  G2 XOR 26077 25950 12738; G2 XOR 17003 25950 12737; G2 AND 12738 12737 12736; G2 XOR 12736 25950 25951;
  G2 XOR 26014 25951 1394; G2 XOR 1394 17005 25826; G2 XOR 26078 25951 12735; G2 XOR 17004 25951 12734;
  G2 AND 12735 12734 12733; G2 XOR 12733 25951 25952; G2 XOR 26015 25952 1393; G2 XOR 1393 17006 25827;
  G2 XOR 26079 25952 12732; G2 XOR 17005 25952 12731; G2 AND 12732 12731 12730; G2 XOR 12730 25952 25953;
  G2 XOR 26016 25953 1392; G2 XOR 1392 17007 25828; G2 XOR 26080 25953 12729; G2 XOR 17006 25953 12728;
  G2 AND 12729 12728 12727; G2 XOR 12727 25953 25954; G2 XOR 26017 25954 1391; G2 XOR 1391 17008 25829;
  G2 XOR 26081 25954 12726; G2 XOR 17007 25954 12725; G2 AND 12726 12725 12724; G2 XOR 12724 25954 25955;
  G2 XOR 26018 25955 1390; G2 XOR 1390 17009 25830; G2 XOR 26082 25955 12723; G2 XOR 17008 25955 12722;
  G2 AND 12723 12722 12721; G2 XOR 12721 25955 25956; G2 XOR 26019 25956 149; G2 AND 16674 4535 17558;
  G1 INV 149 16673; G2 XOR 16862 16673 25831; G2 XOR 1452 16673 25832; G2 XOR 1451 16673 25833;
  G2 XOR 1450 16673 25834; G2 XOR 1449 16673 25835; G2 XOR 1448 16673 25836; G2 XOR 1447 16673 25837;
  G2 XOR 1446 16673 25838; G2 XOR 1445 16673 25839; G2 XOR 1444 16673 25840; G2 XOR 1443 16673 25841;
  G2 XOR 1442 16673 25842; G2 XOR 1441 16673 25843; G2 XOR 1440 16673 25844; G2 XOR 1439 16673 25845;
  G2 XOR 1438 16673 25846; G2 XOR 1437 16673 25847; G2 XOR 1436 16673 25848; G2 XOR 1435 16673 25849;
  G2 XOR 1434 16673 25850; G2 XOR 1433 16673 25851; G2 XOR 1432 16673 25852; G2 XOR 1431 16673 25853;
  G2 XOR 1430 16673 25854; G2 XOR 1429 16673 25855; G2 XOR 1428 16673 25856; G2 XOR 1427 16673 25857;
  G2 XOR 1426 16673 25858; G2 XOR 1425 16673 25859; G2 XOR 1424 16673 25860; G2 XOR 1423 16673 25861;
  G2 XOR 1422 16673 25862; G2 XOR 1421 16673 25863; G2 XOR 1420 16673 25864; G2 XOR 1419 16673 25865;
  G2 XOR 1418 16673 25866; G2 XOR 1417 16673 25867; G2 XOR 1416 16673 25868; G2 XOR 1415 16673 25869;
  G2 XOR 1414 16673 25870; G2 XOR 1413 16673 25871; G2 XOR 1412 16673 25872; G2 XOR 1411 16673 25873;
  G2 XOR 1410 16673 25874; G2 XOR 1409 16673 25875; G2 XOR 1408 16673 25876; G2 XOR 1407 16673 25877;
  G2 XOR 1406 16673 25878; G2 XOR 1405 16673 25879; G2 XOR 1404 16673 25880; G2 XOR 1403 16673 25881;
  G2 XOR 1402 16673 25882; G2 XOR 1401 16673 25883; G2 XOR 1400 16673 25884; G2 XOR 1399 16673 25885;
  G2 XOR 1398 16673 25886; G2 XOR 1397 16673 25887; G2 XOR 1396 16673 25888; G2 XOR 1395 16673 25889;
  G2 XOR 1394 16673 25890; G2 XOR 1393 16673 25891; G2 XOR 1392 16673 25892; G2 XOR 1391 16673 25893;
  G2 AND 25831 16946 25705; G2 XOR 25768 25705 1514; G2 XOR 1514 16948 25580; G2 XOR 25832 25705 12720;
  G2 XOR 16947 25705 12719; G2 AND 12720 12719 12718; G2 XOR 12718 25705 25706; G2 XOR 25769 25706 1513;
  G2 XOR 1513 16949 25581; G2 XOR 25833 25706 12717; G2 XOR 16948 25706 12716; G2 AND 12717 12716 12715;
  G2 XOR 12715 25706 25707; G2 XOR 25770 25707 1512; G2 XOR 1512 16950 25582; G2 XOR 25834 25707 12714;
  G2 XOR 16949 25707 12713; G2 AND 12714 12713 12712; G2 XOR 12712 25707 25708; G2 XOR 25771 25708 1511;
  G2 XOR 1511 16951 25583; G2 XOR 25835 25708 12711; G2 XOR 16950 25708 12710; G2 AND 12711 12710 12709;
  G2 XOR 12709 25708 25709; G2 XOR 25772 25709 1510; G2 XOR 1510 16952 25584; G2 XOR 25836 25709 12708;
  G2 XOR 16951 25709 12707; G2 AND 12708 12707 12706; G2 XOR 12706 25709 25710; G2 XOR 25773 25710 1509;
  G2 XOR 1509 16953 25585; G2 XOR 25837 25710 12705; G2 XOR 16952 25710 12704; G2 AND 12705 12704 12703;
  G2 XOR 12703 25710 25711; G2 XOR 25774 25711 1508; G2 XOR 1508 16954 25586; G2 XOR 25838 25711 12702;
  G2 XOR 16953 25711 12701; G2 AND 12702 12701 12700; G2 XOR 12700 25711 25712; G2 XOR 25775 25712 1507;
  G2 XOR 1507 16955 25587; G2 XOR 25839 25712 12699; G2 XOR 16954 25712 12698; G2 AND 12699 12698 12697;
  G2 XOR 12697 25712 25713; G2 XOR 25776 25713 1506; G2 XOR 1506 16956 25588; G2 XOR 25840 25713 12696;
  G2 XOR 16955 25713 12695; G2 AND 12696 12695 12694; G2 XOR 12694 25713 25714; G2 XOR 25777 25714 1505;
  G2 XOR 1505 16957 25589; G2 XOR 25841 25714 12693; G2 XOR 16956 25714 12692; G2 AND 12693 12692 12691;
  G2 XOR 12691 25714 25715; G2 XOR 25778 25715 1504; G2 XOR 1504 16958 25590; G2 XOR 25842 25715 12690;
  G2 XOR 16957 25715 12689; G2 AND 12690 12689 12688; G2 XOR 12688 25715 25716; G2 XOR 25779 25716 1503;
  G2 XOR 1503 16959 25591; G2 XOR 25843 25716 12687; G2 XOR 16958 25716 12686; G2 AND 12687 12686 12685;
  G2 XOR 12685 25716 25717; G2 XOR 25780 25717 1502; G2 XOR 1502 16960 25592; G2 XOR 25844 25717 12684;
  G2 XOR 16959 25717 12683; G2 AND 12684 12683 12682; G2 XOR 12682 25717 25718; G2 XOR 25781 25718 1501;
  G2 XOR 1501 16961 25593; G2 XOR 25845 25718 12681; G2 XOR 16960 25718 12680; G2 AND 12681 12680 12679;
  G2 XOR 12679 25718 25719; G2 XOR 25782 25719 1500; G2 XOR 1500 16962 25594; G2 XOR 25846 25719 12678;
  G2 XOR 16961 25719 12677; G2 AND 12678 12677 12676; G2 XOR 12676 25719 25720; G2 XOR 25783 25720 1499;
  G2 XOR 1499 16963 25595; G2 XOR 25847 25720 12675; G2 XOR 16962 25720 12674; G2 AND 12675 12674 12673;
  G2 XOR 12673 25720 25721; G2 XOR 25784 25721 1498; G2 XOR 1498 16964 25596; G2 XOR 25848 25721 12672;
  G2 XOR 16963 25721 12671; G2 AND 12672 12671 12670; G2 XOR 12670 25721 25722; G2 XOR 25785 25722 1497;
  G2 XOR 1497 16965 25597; G2 XOR 25849 25722 12669; G2 XOR 16964 25722 12668; G2 AND 12669 12668 12667;
  G2 XOR 12667 25722 25723; G2 XOR 25786 25723 1496; G2 XOR 1496 16966 25598; G2 XOR 25850 25723 12666;
  G2 XOR 16965 25723 12665; G2 AND 12666 12665 12664; G2 XOR 12664 25723 25724; G2 XOR 25787 25724 1495;
  G2 XOR 1495 16967 25599; G2 XOR 25851 25724 12663; G2 XOR 16966 25724 12662; G2 AND 12663 12662 12661;
  G2 XOR 12661 25724 25725; G2 XOR 25788 25725 1494; G2 XOR 1494 16968 25600; G2 XOR 25852 25725 12660;
  G2 XOR 16967 25725 12659; G2 AND 12660 12659 12658; G2 XOR 12658 25725 25726; G2 XOR 25789 25726 1493;
  G2 XOR 1493 16969 25601; G2 XOR 25853 25726 12657; G2 XOR 16968 25726 12656; G2 AND 12657 12656 12655;
  G2 XOR 12655 25726 25727; G2 XOR 25790 25727 1492; G2 XOR 1492 16970 25602; G2 XOR 25854 25727 12654;
  G2 XOR 16969 25727 12653; G2 AND 12654 12653 12652; G2 XOR 12652 25727 25728; G2 XOR 25791 25728 1491;
  G2 XOR 1491 16971 25603; G2 XOR 25855 25728 12651; G2 XOR 16970 25728 12650; G2 AND 12651 12650 12649;
  G2 XOR 12649 25728 25729; G2 XOR 25792 25729 1490; G2 XOR 1490 16972 25604; G2 XOR 25856 25729 12648;
  G2 XOR 16971 25729 12647; G2 AND 12648 12647 12646; G2 XOR 12646 25729 25730; G2 XOR 25793 25730 1489;
  G2 XOR 1489 16973 25605; G2 XOR 25857 25730 12645; G2 XOR 16972 25730 12644; G2 AND 12645 12644 12643;
  G2 XOR 12643 25730 25731; G2 XOR 25794 25731 1488; G2 XOR 1488 16974 25606; G2 XOR 25858 25731 12642;
  G2 XOR 16973 25731 12641; G2 AND 12642 12641 12640; G2 XOR 12640 25731 25732; G2 XOR 25795 25732 1487;
  G2 XOR 1487 16975 25607; G2 XOR 25859 25732 12639; G2 XOR 16974 25732 12638; G2 AND 12639 12638 12637;
  G2 XOR 12637 25732 25733; G2 XOR 25796 25733 1486; G2 XOR 1486 16976 25608; G2 XOR 25860 25733 12636;
  G2 XOR 16975 25733 12635; G2 AND 12636 12635 12634; G2 XOR 12634 25733 25734; G2 XOR 25797 25734 1485;
  G2 XOR 1485 16977 25609; G2 XOR 25861 25734 12633; G2 XOR 16976 25734 12632; G2 AND 12633 12632 12631;
  G2 XOR 12631 25734 25735; G2 XOR 25798 25735 1484; G2 XOR 1484 16978 25610; G2 XOR 25862 25735 12630;
  G2 XOR 16977 25735 12629; G2 AND 12630 12629 12628; G2 XOR 12628 25735 25736; G2 XOR 25799 25736 1483;
  G2 XOR 1483 16979 25611; G2 XOR 25863 25736 12627; G2 XOR 16978 25736 12626; G2 AND 12627 12626 12625;
  G2 XOR 12625 25736 25737; G2 XOR 25800 25737 1482; G2 XOR 1482 16980 25612; G2 XOR 25864 25737 12624;
  G2 XOR 16979 25737 12623; G2 AND 12624 12623 12622; G2 XOR 12622 25737 25738; G2 XOR 25801 25738 1481;
  G2 XOR 1481 16981 25613; G2 XOR 25865 25738 12621; G2 XOR 16980 25738 12620; G2 AND 12621 12620 12619;
  G2 XOR 12619 25738 25739; G2 XOR 25802 25739 1480; G2 XOR 1480 16982 25614; G2 XOR 25866 25739 12618;
  G2 XOR 16981 25739 12617; G2 AND 12618 12617 12616; G2 XOR 12616 25739 25740; G2 XOR 25803 25740 1479;
  G2 XOR 1479 16983 25615; G2 XOR 25867 25740 12615; G2 XOR 16982 25740 12614; G2 AND 12615 12614 12613;
  G2 XOR 12613 25740 25741; G2 XOR 25804 25741 1478; G2 XOR 1478 16984 25616; G2 XOR 25868 25741 12612;
  G2 XOR 16983 25741 12611; G2 AND 12612 12611 12610; G2 XOR 12610 25741 25742; G2 XOR 25805 25742 1477;
  G2 XOR 1477 16985 25617; G2 XOR 25869 25742 12609; G2 XOR 16984 25742 12608; G2 AND 12609 12608 12607;
  G2 XOR 12607 25742 25743; G2 XOR 25806 25743 1476; G2 XOR 1476 16986 25618; G2 XOR 25870 25743 12606;
  G2 XOR 16985 25743 12605; G2 AND 12606 12605 12604; G2 XOR 12604 25743 25744; G2 XOR 25807 25744 1475;
  G2 XOR 1475 16987 25619; G2 XOR 25871 25744 12603; G2 XOR 16986 25744 12602; G2 AND 12603 12602 12601;
  G2 XOR 12601 25744 25745; G2 XOR 25808 25745 1474; G2 XOR 1474 16988 25620; G2 XOR 25872 25745 12600;
  G2 XOR 16987 25745 12599; G2 AND 12600 12599 12598; G2 XOR 12598 25745 25746; G2 XOR 25809 25746 1473;
  G2 XOR 1473 16989 25621; G2 XOR 25873 25746 12597; G2 XOR 16988 25746 12596; G2 AND 12597 12596 12595;
  G2 XOR 12595 25746 25747; G2 XOR 25810 25747 1472; G2 XOR 1472 16990 25622; G2 XOR 25874 25747 12594;
  G2 XOR 16989 25747 12593; G2 AND 12594 12593 12592; G2 XOR 12592 25747 25748; G2 XOR 25811 25748 1471;
  G2 XOR 1471 16991 25623; G2 XOR 25875 25748 12591; G2 XOR 16990 25748 12590; G2 AND 12591 12590 12589;
  G2 XOR 12589 25748 25749; G2 XOR 25812 25749 1470; G2 XOR 1470 16992 25624; G2 XOR 25876 25749 12588;
  G2 XOR 16991 25749 12587; G2 AND 12588 12587 12586; G2 XOR 12586 25749 25750; G2 XOR 25813 25750 1469;
  G2 XOR 1469 16993 25625; G2 XOR 25877 25750 12585; G2 XOR 16992 25750 12584; G2 AND 12585 12584 12583;
  G2 XOR 12583 25750 25751; G2 XOR 25814 25751 1468; G2 XOR 1468 16994 25626; G2 XOR 25878 25751 12582;
  G2 XOR 16993 25751 12581; G2 AND 12582 12581 12580; G2 XOR 12580 25751 25752; G2 XOR 25815 25752 1467;
  G2 XOR 1467 16995 25627; G2 XOR 25879 25752 12579; G2 XOR 16994 25752 12578; G2 AND 12579 12578 12577;
  G2 XOR 12577 25752 25753; G2 XOR 25816 25753 1466; G2 XOR 1466 16996 25628; G2 XOR 25880 25753 12576;
  G2 XOR 16995 25753 12575; G2 AND 12576 12575 12574; G2 XOR 12574 25753 25754; G2 XOR 25817 25754 1465;
  G2 XOR 1465 16997 25629; G2 XOR 25881 25754 12573; G2 XOR 16996 25754 12572; G2 AND 12573 12572 12571;
  G2 XOR 12571 25754 25755; G2 XOR 25818 25755 1464; G2 XOR 1464 16998 25630; G2 XOR 25882 25755 12570;
  G2 XOR 16997 25755 12569; G2 AND 12570 12569 12568; G2 XOR 12568 25755 25756; G2 XOR 25819 25756 1463;
  G2 XOR 1463 16999 25631; G2 XOR 25883 25756 12567; G2 XOR 16998 25756 12566; G2 AND 12567 12566 12565;
  G2 XOR 12565 25756 25757; G2 XOR 25820 25757 1462; G2 XOR 1462 17000 25632; G2 XOR 25884 25757 12564;
  G2 XOR 16999 25757 12563; G2 AND 12564 12563 12562; G2 XOR 12562 25757 25758; G2 XOR 25821 25758 1461;
  G2 XOR 1461 17001 25633; G2 XOR 25885 25758 12561; G2 XOR 17000 25758 12560; G2 AND 12561 12560 12559;
  G2 XOR 12559 25758 25759; G2 XOR 25822 25759 1460; G2 XOR 1460 17002 25634; G2 XOR 25886 25759 12558;
  G2 XOR 17001 25759 12557; G2 AND 12558 12557 12556; G2 XOR 12556 25759 25760; G2 XOR 25823 25760 1459;
  G2 XOR 1459 17003 25635; G2 XOR 25887 25760 12555; G2 XOR 17002 25760 12554; G2 AND 12555 12554 12553;
  G2 XOR 12553 25760 25761; G2 XOR 25824 25761 1458; G2 XOR 1458 17004 25636; G2 XOR 25888 25761 12552;
  G2 XOR 17003 25761 12551; G2 AND 12552 12551 12550; G2 XOR 12550 25761 25762; G2 XOR 25825 25762 1457;
  G2 XOR 1457 17005 25637; G2 XOR 25889 25762 12549; G2 XOR 17004 25762 12548; G2 AND 12549 12548 12547;
  G2 XOR 12547 25762 25763; G2 XOR 25826 25763 1456; G2 XOR 1456 17006 25638; G2 XOR 25890 25763 12546;
  G2 XOR 17005 25763 12545; G2 AND 12546 12545 12544; G2 XOR 12544 25763 25764; G2 XOR 25827 25764 1455;
  G2 XOR 1455 17007 25639; G2 XOR 25891 25764 12543; G2 XOR 17006 25764 12542; G2 AND 12543 12542 12541;
  G2 XOR 12541 25764 25765; G2 XOR 25828 25765 1454; G2 XOR 1454 17008 25640; G2 XOR 25892 25765 12540;
  G2 XOR 17007 25765 12539; G2 AND 12540 12539 12538; G2 XOR 12538 25765 25766; G2 XOR 25829 25766 1453;
  G2 XOR 1453 17009 25641; G2 XOR 25893 25766 12537; G2 XOR 17008 25766 12536; G2 AND 12537 12536 12535;
  G2 XOR 12535 25766 25767; G2 XOR 25830 25767 150; G1 INV 150 16672; G2 XOR 16861 16672 25642;
  G2 XOR 1515 16672 25643; G2 XOR 1514 16672 25644; G2 XOR 1513 16672 25645; G2 XOR 1512 16672 25646;
  G2 XOR 1511 16672 25647; G2 XOR 1510 16672 25648; G2 XOR 1509 16672 25649; G2 XOR 1508 16672 25650;
  G2 XOR 1507 16672 25651; G2 XOR 1506 16672 25652; G2 XOR 1505 16672 25653; G2 XOR 1504 16672 25654;
  G2 XOR 1503 16672 25655; G2 XOR 1502 16672 25656; G2 XOR 1501 16672 25657; G2 XOR 1500 16672 25658;
  G2 XOR 1499 16672 25659; G2 XOR 1498 16672 25660; G2 XOR 1497 16672 25661; G2 XOR 1496 16672 25662;
  G2 XOR 1495 16672 25663; G2 XOR 1494 16672 25664; G2 XOR 1493 16672 25665; G2 XOR 1492 16672 25666;
  G2 XOR 1491 16672 25667; G2 XOR 1490 16672 25668; G2 XOR 1489 16672 25669; G2 XOR 1488 16672 25670;
  G2 XOR 1487 16672 25671; G2 XOR 1486 16672 25672; G2 XOR 1485 16672 25673; G2 XOR 1484 16672 25674;
  G2 XOR 1483 16672 25675; G2 XOR 1482 16672 25676; G2 XOR 1481 16672 25677; G2 XOR 1480 16672 25678;
  G2 XOR 1479 16672 25679; G2 XOR 1478 16672 25680; G2 XOR 1477 16672 25681; G2 XOR 1476 16672 25682;
  G2 XOR 1475 16672 25683; G2 XOR 1474 16672 25684; G2 XOR 1473 16672 25685; G2 XOR 1472 16672 25686;
  G2 XOR 1471 16672 25687; G2 XOR 1470 16672 25688; G2 XOR 1469 16672 25689; G2 XOR 1468 16672 25690;
  G2 XOR 1467 16672 25691; G2 XOR 1466 16672 25692; G2 XOR 1465 16672 25693; G2 XOR 1464 16672 25694;
  G2 XOR 1463 16672 25695; G2 XOR 1462 16672 25696; G2 XOR 1461 16672 25697; G2 XOR 1460 16672 25698;
  G2 XOR 1459 16672 25699; G2 XOR 1458 16672 25700; G2 XOR 1457 16672 25701; G2 XOR 1456 16672 25702;
  G2 XOR 1455 16672 25703; G2 XOR 1454 16672 25704; G2 AND 25642 16946 25516; G2 XOR 25579 25516 1577;
  G2 XOR 1577 16948 25391; G2 XOR 25643 25516 12534; G2 XOR 16947 25516 12533; G2 AND 12534 12533 12532;
  G2 XOR 12532 25516 25517; G2 XOR 25580 25517 1576; G2 XOR 1576 16949 25392; G2 XOR 25644 25517 12531;
  G2 XOR 16948 25517 12530; G2 AND 12531 12530 12529; G2 XOR 12529 25517 25518; G2 XOR 25581 25518 1575;
  G2 XOR 1575 16950 25393; G2 XOR 25645 25518 12528; G2 XOR 16949 25518 12527; G2 AND 12528 12527 12526;
  G2 XOR 12526 25518 25519; G2 XOR 25582 25519 1574; G2 XOR 1574 16951 25394; G2 XOR 25646 25519 12525;
  G2 XOR 16950 25519 12524; G2 AND 12525 12524 12523; G2 XOR 12523 25519 25520; G2 XOR 25583 25520 1573;
  G2 XOR 1573 16952 25395; G2 XOR 25647 25520 12522; G2 XOR 16951 25520 12521; G2 AND 12522 12521 12520;
  G2 XOR 12520 25520 25521; G2 XOR 25584 25521 1572; G2 XOR 1572 16953 25396; G2 XOR 25648 25521 12519;
  G2 XOR 16952 25521 12518; G2 AND 12519 12518 12517; G2 XOR 12517 25521 25522; G2 XOR 25585 25522 1571;
  G2 XOR 1571 16954 25397; G2 XOR 25649 25522 12516; G2 XOR 16953 25522 12515; G2 AND 12516 12515 12514;
  G2 XOR 12514 25522 25523; G2 XOR 25586 25523 1570; G2 XOR 1570 16955 25398; G2 XOR 25650 25523 12513;
  G2 XOR 16954 25523 12512; G2 AND 12513 12512 12511; G2 XOR 12511 25523 25524; G2 XOR 25587 25524 1569;
  G2 XOR 1569 16956 25399; G2 XOR 25651 25524 12510; G2 XOR 16955 25524 12509; G2 AND 12510 12509 12508;
  G2 XOR 12508 25524 25525; G2 XOR 25588 25525 1568; G2 XOR 1568 16957 25400; G2 XOR 25652 25525 12507;
  G2 XOR 16956 25525 12506; G2 AND 12507 12506 12505; G2 XOR 12505 25525 25526; G2 XOR 25589 25526 1567;
  G2 XOR 1567 16958 25401; G2 XOR 25653 25526 12504; G2 XOR 16957 25526 12503; G2 AND 12504 12503 12502;
  G2 XOR 12502 25526 25527; G2 XOR 25590 25527 1566; G2 XOR 1566 16959 25402; G2 XOR 25654 25527 12501;
  G2 XOR 16958 25527 12500; G2 AND 12501 12500 12499; G2 XOR 12499 25527 25528; G2 XOR 25591 25528 1565;
  G2 XOR 1565 16960 25403; G2 XOR 25655 25528 12498; G2 XOR 16959 25528 12497; G2 AND 12498 12497 12496;
  G2 XOR 12496 25528 25529; G2 XOR 25592 25529 1564; G2 XOR 1564 16961 25404; G2 XOR 25656 25529 12495;
  G2 XOR 16960 25529 12494; G2 AND 12495 12494 12493; G2 XOR 12493 25529 25530; G2 XOR 25593 25530 1563;
  G2 XOR 1563 16962 25405; G2 XOR 25657 25530 12492; G2 XOR 16961 25530 12491; G2 AND 12492 12491 12490;
  G2 XOR 12490 25530 25531; G2 XOR 25594 25531 1562; G2 XOR 1562 16963 25406; G2 XOR 25658 25531 12489;
  G2 XOR 16962 25531 12488; G2 AND 12489 12488 12487; G2 XOR 12487 25531 25532; G2 XOR 25595 25532 1561;
  G2 XOR 1561 16964 25407; G2 XOR 25659 25532 12486; G2 XOR 16963 25532 12485; G2 AND 12486 12485 12484;
  G2 XOR 12484 25532 25533; G2 XOR 25596 25533 1560; G2 XOR 1560 16965 25408; G2 XOR 25660 25533 12483;
  G2 XOR 16964 25533 12482; G2 AND 12483 12482 12481; G2 XOR 12481 25533 25534; G2 XOR 25597 25534 1559;
  G2 XOR 1559 16966 25409; G2 XOR 25661 25534 12480; G2 XOR 16965 25534 12479; G2 AND 12480 12479 12478;
  G2 XOR 12478 25534 25535; G2 XOR 25598 25535 1558; G2 XOR 1558 16967 25410; G2 XOR 25662 25535 12477;
  G2 XOR 16966 25535 12476; G2 AND 12477 12476 12475; G2 XOR 12475 25535 25536; G2 XOR 25599 25536 1557;
  G2 XOR 1557 16968 25411; G2 XOR 25663 25536 12474; G2 XOR 16967 25536 12473; G2 AND 12474 12473 12472;
  G2 XOR 12472 25536 25537; G2 XOR 25600 25537 1556; G2 XOR 1556 16969 25412; G2 XOR 25664 25537 12471;
  G2 XOR 16968 25537 12470; G2 AND 12471 12470 12469; G2 XOR 12469 25537 25538; G2 XOR 25601 25538 1555;
  G2 XOR 1555 16970 25413; G2 XOR 25665 25538 12468; G2 XOR 16969 25538 12467; G2 AND 12468 12467 12466;
  G2 XOR 12466 25538 25539; G2 XOR 25602 25539 1554; G2 XOR 1554 16971 25414; G2 XOR 25666 25539 12465;
  G2 XOR 16970 25539 12464; G2 AND 12465 12464 12463; G2 XOR 12463 25539 25540; G2 XOR 25603 25540 1553;
  G2 XOR 1553 16972 25415; G2 XOR 25667 25540 12462; G2 XOR 16971 25540 12461; G2 AND 12462 12461 12460;
  G2 XOR 12460 25540 25541; G2 XOR 25604 25541 1552; G2 XOR 1552 16973 25416; G2 XOR 25668 25541 12459;
  G2 XOR 16972 25541 12458; G2 AND 12459 12458 12457; G2 XOR 12457 25541 25542; G2 XOR 25605 25542 1551;
  G2 XOR 1551 16974 25417; G2 XOR 25669 25542 12456; G2 XOR 16973 25542 12455; G2 AND 12456 12455 12454;
  G2 XOR 12454 25542 25543; G2 XOR 25606 25543 1550; G2 XOR 1550 16975 25418; G2 XOR 25670 25543 12453;
  G2 XOR 16974 25543 12452; G2 AND 12453 12452 12451; G2 XOR 12451 25543 25544; G2 XOR 25607 25544 1549;
  G2 XOR 1549 16976 25419; G2 XOR 25671 25544 12450; G2 XOR 16975 25544 12449; G2 AND 12450 12449 12448;
  G2 XOR 12448 25544 25545; G2 XOR 25608 25545 1548; G2 XOR 1548 16977 25420; G2 XOR 25672 25545 12447;
  G2 XOR 16976 25545 12446; G2 AND 12447 12446 12445; G2 XOR 12445 25545 25546; G2 XOR 25609 25546 1547;
  G2 XOR 1547 16978 25421; G2 XOR 25673 25546 12444; G2 XOR 16977 25546 12443; G2 AND 12444 12443 12442;
  G2 XOR 12442 25546 25547; G2 XOR 25610 25547 1546; G2 XOR 1546 16979 25422; G2 XOR 25674 25547 12441;
  G2 XOR 16978 25547 12440; G2 AND 12441 12440 12439; G2 XOR 12439 25547 25548; G2 XOR 25611 25548 1545;
  G2 XOR 1545 16980 25423; G2 XOR 25675 25548 12438; G2 XOR 16979 25548 12437; G2 AND 12438 12437 12436;
  G2 XOR 12436 25548 25549; G2 XOR 25612 25549 1544; G2 XOR 1544 16981 25424; G2 XOR 25676 25549 12435;
  G2 XOR 16980 25549 12434; G2 AND 12435 12434 12433; G2 XOR 12433 25549 25550; G2 XOR 25613 25550 1543;
  G2 XOR 1543 16982 25425; G2 XOR 25677 25550 12432; G2 XOR 16981 25550 12431; G2 AND 12432 12431 12430;
  G2 XOR 12430 25550 25551; G2 XOR 25614 25551 1542; G2 XOR 1542 16983 25426; G2 XOR 25678 25551 12429;
  G2 XOR 16982 25551 12428; G2 AND 12429 12428 12427; G2 XOR 12427 25551 25552; G2 XOR 25615 25552 1541;
  G2 XOR 1541 16984 25427; G2 XOR 25679 25552 12426; G2 XOR 16983 25552 12425; G2 AND 12426 12425 12424;
  G2 XOR 12424 25552 25553; G2 XOR 25616 25553 1540; G2 XOR 1540 16985 25428; G2 XOR 25680 25553 12423;
  G2 XOR 16984 25553 12422; G2 AND 12423 12422 12421; G2 XOR 12421 25553 25554; G2 XOR 25617 25554 1539;
  G2 XOR 1539 16986 25429; G2 XOR 25681 25554 12420; G2 XOR 16985 25554 12419; G2 AND 12420 12419 12418;
  G2 XOR 12418 25554 25555; G2 XOR 25618 25555 1538; G2 XOR 1538 16987 25430; G2 XOR 25682 25555 12417;
  G2 XOR 16986 25555 12416; G2 AND 12417 12416 12415; G2 XOR 12415 25555 25556; G2 XOR 25619 25556 1537;
  G2 XOR 1537 16988 25431; G2 XOR 25683 25556 12414; G2 XOR 16987 25556 12413; G2 AND 12414 12413 12412;
  G2 XOR 12412 25556 25557; G2 XOR 25620 25557 1536; G2 XOR 1536 16989 25432; G2 XOR 25684 25557 12411;
  G2 XOR 16988 25557 12410; G2 AND 12411 12410 12409; G2 XOR 12409 25557 25558; G2 XOR 25621 25558 1535;
  G2 XOR 1535 16990 25433; G2 XOR 25685 25558 12408; G2 XOR 16989 25558 12407; G2 AND 12408 12407 12406;
  G2 XOR 12406 25558 25559; G2 XOR 25622 25559 1534; G2 XOR 1534 16991 25434; G2 XOR 25686 25559 12405;
  G2 XOR 16990 25559 12404; G2 AND 12405 12404 12403; G2 XOR 12403 25559 25560; G2 XOR 25623 25560 1533;
  G2 XOR 1533 16992 25435; G2 XOR 25687 25560 12402; G2 XOR 16991 25560 12401; G2 AND 12402 12401 12400;
  G2 XOR 12400 25560 25561; G2 XOR 25624 25561 1532; G2 XOR 1532 16993 25436; G2 XOR 25688 25561 12399;
  G2 XOR 16992 25561 12398; G2 AND 12399 12398 12397; G2 XOR 12397 25561 25562; G2 XOR 25625 25562 1531;
  G2 XOR 1531 16994 25437; G2 XOR 25689 25562 12396; G2 XOR 16993 25562 12395; G2 AND 12396 12395 12394;
  G2 XOR 12394 25562 25563; G2 XOR 25626 25563 1530; G2 XOR 1530 16995 25438; G2 XOR 25690 25563 12393;
  G2 XOR 16994 25563 12392; G2 AND 12393 12392 12391; G2 XOR 12391 25563 25564; G2 XOR 25627 25564 1529;
  G2 XOR 1529 16996 25439; G2 XOR 25691 25564 12390; G2 XOR 16995 25564 12389; G2 AND 12390 12389 12388;
  G2 XOR 12388 25564 25565; G2 XOR 25628 25565 1528; G2 XOR 1528 16997 25440; G2 XOR 25692 25565 12387;
  G2 XOR 16996 25565 12386; G2 AND 12387 12386 12385; G2 XOR 12385 25565 25566; G2 XOR 25629 25566 1527;
  G2 XOR 1527 16998 25441; G2 XOR 25693 25566 12384; G2 XOR 16997 25566 12383; G2 AND 12384 12383 12382;
  G2 XOR 12382 25566 25567; G2 XOR 25630 25567 1526; G2 XOR 1526 16999 25442; G2 XOR 25694 25567 12381;
  G2 XOR 16998 25567 12380; G2 AND 12381 12380 12379; G2 XOR 12379 25567 25568; G2 XOR 25631 25568 1525;
  G2 XOR 1525 17000 25443; G2 XOR 25695 25568 12378; G2 XOR 16999 25568 12377; G2 AND 12378 12377 12376;
  G2 XOR 12376 25568 25569; G2 XOR 25632 25569 1524; G2 XOR 1524 17001 25444; G2 XOR 25696 25569 12375;
  G2 XOR 17000 25569 12374; G2 AND 12375 12374 12373; G2 XOR 12373 25569 25570; G2 XOR 25633 25570 1523;
  G2 XOR 1523 17002 25445; G2 XOR 25697 25570 12372; G2 XOR 17001 25570 12371; G2 AND 12372 12371 12370;
  G2 XOR 12370 25570 25571; G2 XOR 25634 25571 1522; G2 XOR 1522 17003 25446; G2 XOR 25698 25571 12369;
  G2 XOR 17002 25571 12368; G2 AND 12369 12368 12367; G2 XOR 12367 25571 25572; G2 XOR 25635 25572 1521;
  G2 XOR 1521 17004 25447; G2 XOR 25699 25572 12366; G2 XOR 17003 25572 12365; G2 AND 12366 12365 12364;
  G2 XOR 12364 25572 25573; G2 XOR 25636 25573 1520; G2 XOR 1520 17005 25448; G2 XOR 25700 25573 12363;
  G2 XOR 17004 25573 12362; G2 AND 12363 12362 12361; G2 XOR 12361 25573 25574; G2 XOR 25637 25574 1519;
  G2 XOR 1519 17006 25449; G2 XOR 25701 25574 12360; G2 XOR 17005 25574 12359; G2 AND 12360 12359 12358;
  G2 XOR 12358 25574 25575; G2 XOR 25638 25575 1518; G2 XOR 1518 17007 25450; G2 XOR 25702 25575 12357;
  G2 XOR 17006 25575 12356; G2 AND 12357 12356 12355; G2 XOR 12355 25575 25576; G2 XOR 25639 25576 1517;
  G2 XOR 1517 17008 25451; G2 XOR 25703 25576 12354; G2 XOR 17007 25576 12353; G2 AND 12354 12353 12352;
  G2 XOR 12352 25576 25577; G2 XOR 25640 25577 1516; G2 XOR 1516 17009 25452; G2 XOR 25704 25577 12351;
  G2 XOR 17008 25577 12350; G2 AND 12351 12350 12349; G2 XOR 12349 25577 25578; G2 XOR 25641 25578 151;
  G2 AND 16672 4535 17556; G1 INV 151 16671; G2 XOR 16860 16671 25453; G2 XOR 1578 16671 25454;
  G2 XOR 1577 16671 25455; G2 XOR 1576 16671 25456; G2 XOR 1575 16671 25457; G2 XOR 1574 16671 25458;
  G2 XOR 1573 16671 25459; G2 XOR 1572 16671 25460; G2 XOR 1571 16671 25461; G2 XOR 1570 16671 25462;
  G2 XOR 1569 16671 25463; G2 XOR 1568 16671 25464; G2 XOR 1567 16671 25465; G2 XOR 1566 16671 25466;
  G2 XOR 1565 16671 25467; G2 XOR 1564 16671 25468; G2 XOR 1563 16671 25469; G2 XOR 1562 16671 25470;
  G2 XOR 1561 16671 25471; G2 XOR 1560 16671 25472; G2 XOR 1559 16671 25473; G2 XOR 1558 16671 25474;
  G2 XOR 1557 16671 25475; G2 XOR 1556 16671 25476; G2 XOR 1555 16671 25477; G2 XOR 1554 16671 25478;
  G2 XOR 1553 16671 25479; G2 XOR 1552 16671 25480; G2 XOR 1551 16671 25481; G2 XOR 1550 16671 25482;
  G2 XOR 1549 16671 25483; G2 XOR 1548 16671 25484; G2 XOR 1547 16671 25485; G2 XOR 1546 16671 25486;
  G2 XOR 1545 16671 25487; G2 XOR 1544 16671 25488; G2 XOR 1543 16671 25489; G2 XOR 1542 16671 25490;
  G2 XOR 1541 16671 25491; G2 XOR 1540 16671 25492; G2 XOR 1539 16671 25493; G2 XOR 1538 16671 25494;
  G2 XOR 1537 16671 25495; G2 XOR 1536 16671 25496; G2 XOR 1535 16671 25497; G2 XOR 1534 16671 25498;
  G2 XOR 1533 16671 25499; G2 XOR 1532 16671 25500; G2 XOR 1531 16671 25501; G2 XOR 1530 16671 25502;
  G2 XOR 1529 16671 25503; G2 XOR 1528 16671 25504; G2 XOR 1527 16671 25505; G2 XOR 1526 16671 25506;
  G2 XOR 1525 16671 25507; G2 XOR 1524 16671 25508; G2 XOR 1523 16671 25509; G2 XOR 1522 16671 25510;
  G2 XOR 1521 16671 25511; G2 XOR 1520 16671 25512; G2 XOR 1519 16671 25513; G2 XOR 1518 16671 25514;
  G2 XOR 1517 16671 25515; G2 AND 25453 16946 25327; G2 XOR 25390 25327 1640; G2 XOR 1640 16948 25202;
  G2 XOR 25454 25327 12348; G2 XOR 16947 25327 12347; G2 AND 12348 12347 12346; G2 XOR 12346 25327 25328;
  G2 XOR 25391 25328 1639; G2 XOR 1639 16949 25203; G2 XOR 25455 25328 12345; G2 XOR 16948 25328 12344;
  G2 AND 12345 12344 12343; G2 XOR 12343 25328 25329; G2 XOR 25392 25329 1638; G2 XOR 1638 16950 25204;
  G2 XOR 25456 25329 12342; G2 XOR 16949 25329 12341; G2 AND 12342 12341 12340; G2 XOR 12340 25329 25330;
  G2 XOR 25393 25330 1637; G2 XOR 1637 16951 25205; G2 XOR 25457 25330 12339; G2 XOR 16950 25330 12338;
  G2 AND 12339 12338 12337; G2 XOR 12337 25330 25331; G2 XOR 25394 25331 1636; G2 XOR 1636 16952 25206;
  G2 XOR 25458 25331 12336; G2 XOR 16951 25331 12335; G2 AND 12336 12335 12334; G2 XOR 12334 25331 25332;
  G2 XOR 25395 25332 1635; G2 XOR 1635 16953 25207; G2 XOR 25459 25332 12333; G2 XOR 16952 25332 12332;
  G2 AND 12333 12332 12331; G2 XOR 12331 25332 25333; G2 XOR 25396 25333 1634; G2 XOR 1634 16954 25208;
  G2 XOR 25460 25333 12330; G2 XOR 16953 25333 12329; G2 AND 12330 12329 12328; G2 XOR 12328 25333 25334;
  G2 XOR 25397 25334 1633; G2 XOR 1633 16955 25209; G2 XOR 25461 25334 12327; G2 XOR 16954 25334 12326;
  G2 AND 12327 12326 12325; G2 XOR 12325 25334 25335; G2 XOR 25398 25335 1632; G2 XOR 1632 16956 25210;
  G2 XOR 25462 25335 12324; G2 XOR 16955 25335 12323; G2 AND 12324 12323 12322; G2 XOR 12322 25335 25336;
  G2 XOR 25399 25336 1631; G2 XOR 1631 16957 25211; G2 XOR 25463 25336 12321; G2 XOR 16956 25336 12320;
  G2 AND 12321 12320 12319; G2 XOR 12319 25336 25337; G2 XOR 25400 25337 1630; G2 XOR 1630 16958 25212;
  G2 XOR 25464 25337 12318; G2 XOR 16957 25337 12317; G2 AND 12318 12317 12316; G2 XOR 12316 25337 25338;
  G2 XOR 25401 25338 1629; G2 XOR 1629 16959 25213; G2 XOR 25465 25338 12315; G2 XOR 16958 25338 12314;
  G2 AND 12315 12314 12313; G2 XOR 12313 25338 25339; G2 XOR 25402 25339 1628; G2 XOR 1628 16960 25214;
  G2 XOR 25466 25339 12312; G2 XOR 16959 25339 12311; G2 AND 12312 12311 12310; G2 XOR 12310 25339 25340;
  G2 XOR 25403 25340 1627; G2 XOR 1627 16961 25215; G2 XOR 25467 25340 12309; G2 XOR 16960 25340 12308;
  G2 AND 12309 12308 12307; G2 XOR 12307 25340 25341; G2 XOR 25404 25341 1626; G2 XOR 1626 16962 25216;
  G2 XOR 25468 25341 12306; G2 XOR 16961 25341 12305; G2 AND 12306 12305 12304; G2 XOR 12304 25341 25342;
  G2 XOR 25405 25342 1625; G2 XOR 1625 16963 25217; G2 XOR 25469 25342 12303; G2 XOR 16962 25342 12302;
  G2 AND 12303 12302 12301; G2 XOR 12301 25342 25343; G2 XOR 25406 25343 1624; G2 XOR 1624 16964 25218;
  G2 XOR 25470 25343 12300; G2 XOR 16963 25343 12299; G2 AND 12300 12299 12298; G2 XOR 12298 25343 25344;
  G2 XOR 25407 25344 1623; G2 XOR 1623 16965 25219; G2 XOR 25471 25344 12297; G2 XOR 16964 25344 12296;
  G2 AND 12297 12296 12295; G2 XOR 12295 25344 25345; G2 XOR 25408 25345 1622; G2 XOR 1622 16966 25220;
  G2 XOR 25472 25345 12294; G2 XOR 16965 25345 12293; G2 AND 12294 12293 12292; G2 XOR 12292 25345 25346;
  G2 XOR 25409 25346 1621; G2 XOR 1621 16967 25221; G2 XOR 25473 25346 12291; G2 XOR 16966 25346 12290;
  G2 AND 12291 12290 12289; G2 XOR 12289 25346 25347; G2 XOR 25410 25347 1620; G2 XOR 1620 16968 25222;
  G2 XOR 25474 25347 12288; G2 XOR 16967 25347 12287; G2 AND 12288 12287 12286; G2 XOR 12286 25347 25348;
  G2 XOR 25411 25348 1619; G2 XOR 1619 16969 25223; G2 XOR 25475 25348 12285; G2 XOR 16968 25348 12284;
  G2 AND 12285 12284 12283; G2 XOR 12283 25348 25349; G2 XOR 25412 25349 1618; G2 XOR 1618 16970 25224;
  G2 XOR 25476 25349 12282; G2 XOR 16969 25349 12281; G2 AND 12282 12281 12280; G2 XOR 12280 25349 25350;
  G2 XOR 25413 25350 1617; G2 XOR 1617 16971 25225; G2 XOR 25477 25350 12279; G2 XOR 16970 25350 12278;
  G2 AND 12279 12278 12277; G2 XOR 12277 25350 25351; G2 XOR 25414 25351 1616; G2 XOR 1616 16972 25226;
  G2 XOR 25478 25351 12276; G2 XOR 16971 25351 12275; G2 AND 12276 12275 12274; G2 XOR 12274 25351 25352;
  G2 XOR 25415 25352 1615; G2 XOR 1615 16973 25227; G2 XOR 25479 25352 12273; G2 XOR 16972 25352 12272;
  G2 AND 12273 12272 12271; G2 XOR 12271 25352 25353; G2 XOR 25416 25353 1614; G2 XOR 1614 16974 25228;
  G2 XOR 25480 25353 12270; G2 XOR 16973 25353 12269; G2 AND 12270 12269 12268; G2 XOR 12268 25353 25354;
  G2 XOR 25417 25354 1613; G2 XOR 1613 16975 25229; G2 XOR 25481 25354 12267; G2 XOR 16974 25354 12266;
  G2 AND 12267 12266 12265; G2 XOR 12265 25354 25355; G2 XOR 25418 25355 1612; G2 XOR 1612 16976 25230;
  G2 XOR 25482 25355 12264; G2 XOR 16975 25355 12263; G2 AND 12264 12263 12262; G2 XOR 12262 25355 25356;
  G2 XOR 25419 25356 1611; G2 XOR 1611 16977 25231; G2 XOR 25483 25356 12261; G2 XOR 16976 25356 12260;
  G2 AND 12261 12260 12259; G2 XOR 12259 25356 25357; G2 XOR 25420 25357 1610; G2 XOR 1610 16978 25232;
  G2 XOR 25484 25357 12258; G2 XOR 16977 25357 12257; G2 AND 12258 12257 12256; G2 XOR 12256 25357 25358;
  G2 XOR 25421 25358 1609; G2 XOR 1609 16979 25233; G2 XOR 25485 25358 12255; G2 XOR 16978 25358 12254;
  G2 AND 12255 12254 12253; G2 XOR 12253 25358 25359; G2 XOR 25422 25359 1608; G2 XOR 1608 16980 25234;
  G2 XOR 25486 25359 12252; G2 XOR 16979 25359 12251; G2 AND 12252 12251 12250; G2 XOR 12250 25359 25360;
  G2 XOR 25423 25360 1607; G2 XOR 1607 16981 25235; G2 XOR 25487 25360 12249; G2 XOR 16980 25360 12248;
  G2 AND 12249 12248 12247; G2 XOR 12247 25360 25361; G2 XOR 25424 25361 1606; G2 XOR 1606 16982 25236;
  G2 XOR 25488 25361 12246; G2 XOR 16981 25361 12245; G2 AND 12246 12245 12244; G2 XOR 12244 25361 25362;
  G2 XOR 25425 25362 1605; G2 XOR 1605 16983 25237; G2 XOR 25489 25362 12243; G2 XOR 16982 25362 12242;
  G2 AND 12243 12242 12241; G2 XOR 12241 25362 25363; G2 XOR 25426 25363 1604; G2 XOR 1604 16984 25238;
  G2 XOR 25490 25363 12240; G2 XOR 16983 25363 12239; G2 AND 12240 12239 12238; G2 XOR 12238 25363 25364;
  G2 XOR 25427 25364 1603; G2 XOR 1603 16985 25239; G2 XOR 25491 25364 12237; G2 XOR 16984 25364 12236;
  G2 AND 12237 12236 12235; G2 XOR 12235 25364 25365; G2 XOR 25428 25365 1602; G2 XOR 1602 16986 25240;
  G2 XOR 25492 25365 12234; G2 XOR 16985 25365 12233; G2 AND 12234 12233 12232; G2 XOR 12232 25365 25366;
  G2 XOR 25429 25366 1601; G2 XOR 1601 16987 25241; G2 XOR 25493 25366 12231; G2 XOR 16986 25366 12230;
  G2 AND 12231 12230 12229; G2 XOR 12229 25366 25367; G2 XOR 25430 25367 1600; G2 XOR 1600 16988 25242;
  G2 XOR 25494 25367 12228; G2 XOR 16987 25367 12227; G2 AND 12228 12227 12226; G2 XOR 12226 25367 25368;
  G2 XOR 25431 25368 1599; G2 XOR 1599 16989 25243; G2 XOR 25495 25368 12225; G2 XOR 16988 25368 12224;
  G2 AND 12225 12224 12223; G2 XOR 12223 25368 25369; G2 XOR 25432 25369 1598; G2 XOR 1598 16990 25244;
  G2 XOR 25496 25369 12222; G2 XOR 16989 25369 12221; G2 AND 12222 12221 12220; G2 XOR 12220 25369 25370;
  G2 XOR 25433 25370 1597; G2 XOR 1597 16991 25245; G2 XOR 25497 25370 12219; G2 XOR 16990 25370 12218;
  G2 AND 12219 12218 12217; G2 XOR 12217 25370 25371; G2 XOR 25434 25371 1596; G2 XOR 1596 16992 25246;
  G2 XOR 25498 25371 12216; G2 XOR 16991 25371 12215; G2 AND 12216 12215 12214; G2 XOR 12214 25371 25372;
  G2 XOR 25435 25372 1595; G2 XOR 1595 16993 25247; G2 XOR 25499 25372 12213; G2 XOR 16992 25372 12212;
  G2 AND 12213 12212 12211; G2 XOR 12211 25372 25373; G2 XOR 25436 25373 1594; G2 XOR 1594 16994 25248;
  G2 XOR 25500 25373 12210; G2 XOR 16993 25373 12209; G2 AND 12210 12209 12208; G2 XOR 12208 25373 25374;
  G2 XOR 25437 25374 1593; G2 XOR 1593 16995 25249; G2 XOR 25501 25374 12207; G2 XOR 16994 25374 12206;
  G2 AND 12207 12206 12205; G2 XOR 12205 25374 25375; G2 XOR 25438 25375 1592; G2 XOR 1592 16996 25250;
  G2 XOR 25502 25375 12204; G2 XOR 16995 25375 12203; G2 AND 12204 12203 12202; G2 XOR 12202 25375 25376;
  G2 XOR 25439 25376 1591; G2 XOR 1591 16997 25251; G2 XOR 25503 25376 12201; G2 XOR 16996 25376 12200;
  G2 AND 12201 12200 12199; G2 XOR 12199 25376 25377; G2 XOR 25440 25377 1590; G2 XOR 1590 16998 25252;
  G2 XOR 25504 25377 12198; G2 XOR 16997 25377 12197; G2 AND 12198 12197 12196; G2 XOR 12196 25377 25378;
  G2 XOR 25441 25378 1589; G2 XOR 1589 16999 25253; G2 XOR 25505 25378 12195; G2 XOR 16998 25378 12194;
  G2 AND 12195 12194 12193; G2 XOR 12193 25378 25379; G2 XOR 25442 25379 1588; G2 XOR 1588 17000 25254;
  G2 XOR 25506 25379 12192; G2 XOR 16999 25379 12191; G2 AND 12192 12191 12190; G2 XOR 12190 25379 25380;
  G2 XOR 25443 25380 1587; G2 XOR 1587 17001 25255; G2 XOR 25507 25380 12189; G2 XOR 17000 25380 12188;
  G2 AND 12189 12188 12187; G2 XOR 12187 25380 25381; G2 XOR 25444 25381 1586; G2 XOR 1586 17002 25256;
  G2 XOR 25508 25381 12186; G2 XOR 17001 25381 12185; G2 AND 12186 12185 12184; G2 XOR 12184 25381 25382;
  G2 XOR 25445 25382 1585; G2 XOR 1585 17003 25257; G2 XOR 25509 25382 12183; G2 XOR 17002 25382 12182;
  G2 AND 12183 12182 12181; G2 XOR 12181 25382 25383; G2 XOR 25446 25383 1584; G2 XOR 1584 17004 25258;
  G2 XOR 25510 25383 12180; G2 XOR 17003 25383 12179; G2 AND 12180 12179 12178; G2 XOR 12178 25383 25384;
  G2 XOR 25447 25384 1583; G2 XOR 1583 17005 25259; G2 XOR 25511 25384 12177; G2 XOR 17004 25384 12176;
  G2 AND 12177 12176 12175; G2 XOR 12175 25384 25385; G2 XOR 25448 25385 1582; G2 XOR 1582 17006 25260;
  G2 XOR 25512 25385 12174; G2 XOR 17005 25385 12173; G2 AND 12174 12173 12172; G2 XOR 12172 25385 25386;
  G2 XOR 25449 25386 1581; G2 XOR 1581 17007 25261; G2 XOR 25513 25386 12171; G2 XOR 17006 25386 12170;
  G2 AND 12171 12170 12169; G2 XOR 12169 25386 25387; G2 XOR 25450 25387 1580; G2 XOR 1580 17008 25262;
  G2 XOR 25514 25387 12168; G2 XOR 17007 25387 12167; G2 AND 12168 12167 12166; G2 XOR 12166 25387 25388;
  G2 XOR 25451 25388 1579; G2 XOR 1579 17009 25263; G2 XOR 25515 25388 12165; G2 XOR 17008 25388 12164;
  G2 AND 12165 12164 12163; G2 XOR 12163 25388 25389; G2 XOR 25452 25389 152; G1 INV 152 16670;
  G2 XOR 16859 16670 25264; G2 XOR 1641 16670 25265; G2 XOR 1640 16670 25266; G2 XOR 1639 16670 25267;
  G2 XOR 1638 16670 25268; G2 XOR 1637 16670 25269; G2 XOR 1636 16670 25270; G2 XOR 1635 16670 25271;
  G2 XOR 1634 16670 25272; G2 XOR 1633 16670 25273; G2 XOR 1632 16670 25274; G2 XOR 1631 16670 25275;
  G2 XOR 1630 16670 25276; G2 XOR 1629 16670 25277; G2 XOR 1628 16670 25278; G2 XOR 1627 16670 25279;
  G2 XOR 1626 16670 25280; G2 XOR 1625 16670 25281; G2 XOR 1624 16670 25282; G2 XOR 1623 16670 25283;
  G2 XOR 1622 16670 25284; G2 XOR 1621 16670 25285; G2 XOR 1620 16670 25286; G2 XOR 1619 16670 25287;
  G2 XOR 1618 16670 25288; G2 XOR 1617 16670 25289; G2 XOR 1616 16670 25290; G2 XOR 1615 16670 25291;
  G2 XOR 1614 16670 25292; G2 XOR 1613 16670 25293; G2 XOR 1612 16670 25294; G2 XOR 1611 16670 25295;
  G2 XOR 1610 16670 25296; G2 XOR 1609 16670 25297; G2 XOR 1608 16670 25298; G2 XOR 1607 16670 25299;
  G2 XOR 1606 16670 25300; G2 XOR 1605 16670 25301; G2 XOR 1604 16670 25302; G2 XOR 1603 16670 25303;
  G2 XOR 1602 16670 25304; G2 XOR 1601 16670 25305; G2 XOR 1600 16670 25306; G2 XOR 1599 16670 25307;
  G2 XOR 1598 16670 25308; G2 XOR 1597 16670 25309; G2 XOR 1596 16670 25310; G2 XOR 1595 16670 25311;
  G2 XOR 1594 16670 25312; G2 XOR 1593 16670 25313; G2 XOR 1592 16670 25314; G2 XOR 1591 16670 25315;
  G2 XOR 1590 16670 25316; G2 XOR 1589 16670 25317; G2 XOR 1588 16670 25318; G2 XOR 1587 16670 25319;
  G2 XOR 1586 16670 25320; G2 XOR 1585 16670 25321; G2 XOR 1584 16670 25322; G2 XOR 1583 16670 25323;
  G2 XOR 1582 16670 25324; G2 XOR 1581 16670 25325; G2 XOR 1580 16670 25326; G2 AND 25264 16946 25138;
  G2 XOR 25201 25138 1703; G2 XOR 1703 16948 25013; G2 XOR 25265 25138 12162; G2 XOR 16947 25138 12161;
  G2 AND 12162 12161 12160; G2 XOR 12160 25138 25139; G2 XOR 25202 25139 1702; G2 XOR 1702 16949 25014;
  G2 XOR 25266 25139 12159; G2 XOR 16948 25139 12158; G2 AND 12159 12158 12157; G2 XOR 12157 25139 25140;
  G2 XOR 25203 25140 1701; G2 XOR 1701 16950 25015; G2 XOR 25267 25140 12156; G2 XOR 16949 25140 12155;
  G2 AND 12156 12155 12154; G2 XOR 12154 25140 25141; G2 XOR 25204 25141 1700; G2 XOR 1700 16951 25016;
  G2 XOR 25268 25141 12153; G2 XOR 16950 25141 12152; G2 AND 12153 12152 12151; G2 XOR 12151 25141 25142;
  G2 XOR 25205 25142 1699; G2 XOR 1699 16952 25017; G2 XOR 25269 25142 12150; G2 XOR 16951 25142 12149;
  G2 AND 12150 12149 12148; G2 XOR 12148 25142 25143; G2 XOR 25206 25143 1698; G2 XOR 1698 16953 25018;
  G2 XOR 25270 25143 12147; G2 XOR 16952 25143 12146; G2 AND 12147 12146 12145; G2 XOR 12145 25143 25144;
  G2 XOR 25207 25144 1697; G2 XOR 1697 16954 25019; G2 XOR 25271 25144 12144; G2 XOR 16953 25144 12143;
  G2 AND 12144 12143 12142; G2 XOR 12142 25144 25145; G2 XOR 25208 25145 1696; G2 XOR 1696 16955 25020;
  G2 XOR 25272 25145 12141; G2 XOR 16954 25145 12140; G2 AND 12141 12140 12139; G2 XOR 12139 25145 25146;
  G2 XOR 25209 25146 1695; G2 XOR 1695 16956 25021; G2 XOR 25273 25146 12138; G2 XOR 16955 25146 12137;
  G2 AND 12138 12137 12136; G2 XOR 12136 25146 25147; G2 XOR 25210 25147 1694; G2 XOR 1694 16957 25022;
  G2 XOR 25274 25147 12135; G2 XOR 16956 25147 12134; G2 AND 12135 12134 12133; G2 XOR 12133 25147 25148;
  G2 XOR 25211 25148 1693; G2 XOR 1693 16958 25023; G2 XOR 25275 25148 12132; G2 XOR 16957 25148 12131;
  G2 AND 12132 12131 12130; G2 XOR 12130 25148 25149; G2 XOR 25212 25149 1692; G2 XOR 1692 16959 25024;
  G2 XOR 25276 25149 12129; G2 XOR 16958 25149 12128; G2 AND 12129 12128 12127; G2 XOR 12127 25149 25150;
  G2 XOR 25213 25150 1691; G2 XOR 1691 16960 25025; G2 XOR 25277 25150 12126; G2 XOR 16959 25150 12125;
  G2 AND 12126 12125 12124; G2 XOR 12124 25150 25151; G2 XOR 25214 25151 1690; G2 XOR 1690 16961 25026;
  G2 XOR 25278 25151 12123; G2 XOR 16960 25151 12122; G2 AND 12123 12122 12121; G2 XOR 12121 25151 25152;
  G2 XOR 25215 25152 1689; G2 XOR 1689 16962 25027; G2 XOR 25279 25152 12120; G2 XOR 16961 25152 12119;
  G2 AND 12120 12119 12118; G2 XOR 12118 25152 25153; G2 XOR 25216 25153 1688; G2 XOR 1688 16963 25028;
  G2 XOR 25280 25153 12117; G2 XOR 16962 25153 12116; G2 AND 12117 12116 12115; G2 XOR 12115 25153 25154;
  G2 XOR 25217 25154 1687; G2 XOR 1687 16964 25029; G2 XOR 25281 25154 12114; G2 XOR 16963 25154 12113;
  G2 AND 12114 12113 12112; G2 XOR 12112 25154 25155; G2 XOR 25218 25155 1686; G2 XOR 1686 16965 25030;
  G2 XOR 25282 25155 12111; G2 XOR 16964 25155 12110; G2 AND 12111 12110 12109; G2 XOR 12109 25155 25156;
  G2 XOR 25219 25156 1685; G2 XOR 1685 16966 25031; G2 XOR 25283 25156 12108; G2 XOR 16965 25156 12107;
  G2 AND 12108 12107 12106; G2 XOR 12106 25156 25157; G2 XOR 25220 25157 1684; G2 XOR 1684 16967 25032;
  G2 XOR 25284 25157 12105; G2 XOR 16966 25157 12104; G2 AND 12105 12104 12103; G2 XOR 12103 25157 25158;
  G2 XOR 25221 25158 1683; G2 XOR 1683 16968 25033; G2 XOR 25285 25158 12102; G2 XOR 16967 25158 12101;
  G2 AND 12102 12101 12100; G2 XOR 12100 25158 25159; G2 XOR 25222 25159 1682; G2 XOR 1682 16969 25034;
  G2 XOR 25286 25159 12099; G2 XOR 16968 25159 12098; G2 AND 12099 12098 12097; G2 XOR 12097 25159 25160;
  G2 XOR 25223 25160 1681; G2 XOR 1681 16970 25035; G2 XOR 25287 25160 12096; G2 XOR 16969 25160 12095;
  G2 AND 12096 12095 12094; G2 XOR 12094 25160 25161; G2 XOR 25224 25161 1680; G2 XOR 1680 16971 25036;
  G2 XOR 25288 25161 12093; G2 XOR 16970 25161 12092; G2 AND 12093 12092 12091; G2 XOR 12091 25161 25162;
  G2 XOR 25225 25162 1679; G2 XOR 1679 16972 25037; G2 XOR 25289 25162 12090; G2 XOR 16971 25162 12089;
  G2 AND 12090 12089 12088; G2 XOR 12088 25162 25163; G2 XOR 25226 25163 1678; G2 XOR 1678 16973 25038;
  G2 XOR 25290 25163 12087; G2 XOR 16972 25163 12086; G2 AND 12087 12086 12085; G2 XOR 12085 25163 25164;
  G2 XOR 25227 25164 1677; G2 XOR 1677 16974 25039; G2 XOR 25291 25164 12084; G2 XOR 16973 25164 12083;
  G2 AND 12084 12083 12082; G2 XOR 12082 25164 25165; G2 XOR 25228 25165 1676; G2 XOR 1676 16975 25040;
  G2 XOR 25292 25165 12081; G2 XOR 16974 25165 12080; G2 AND 12081 12080 12079; G2 XOR 12079 25165 25166;
  G2 XOR 25229 25166 1675; G2 XOR 1675 16976 25041; G2 XOR 25293 25166 12078; G2 XOR 16975 25166 12077;
  G2 AND 12078 12077 12076; G2 XOR 12076 25166 25167; G2 XOR 25230 25167 1674; G2 XOR 1674 16977 25042;
  G2 XOR 25294 25167 12075; G2 XOR 16976 25167 12074; G2 AND 12075 12074 12073; G2 XOR 12073 25167 25168;
  G2 XOR 25231 25168 1673; G2 XOR 1673 16978 25043; G2 XOR 25295 25168 12072; G2 XOR 16977 25168 12071;
  G2 AND 12072 12071 12070; G2 XOR 12070 25168 25169; G2 XOR 25232 25169 1672; G2 XOR 1672 16979 25044;
  G2 XOR 25296 25169 12069; G2 XOR 16978 25169 12068; G2 AND 12069 12068 12067; G2 XOR 12067 25169 25170;
  G2 XOR 25233 25170 1671; G2 XOR 1671 16980 25045; G2 XOR 25297 25170 12066; G2 XOR 16979 25170 12065;
  G2 AND 12066 12065 12064; G2 XOR 12064 25170 25171; G2 XOR 25234 25171 1670; G2 XOR 1670 16981 25046;
  G2 XOR 25298 25171 12063; G2 XOR 16980 25171 12062; G2 AND 12063 12062 12061; G2 XOR 12061 25171 25172;
  G2 XOR 25235 25172 1669; G2 XOR 1669 16982 25047; G2 XOR 25299 25172 12060; G2 XOR 16981 25172 12059;
  G2 AND 12060 12059 12058; G2 XOR 12058 25172 25173; G2 XOR 25236 25173 1668; G2 XOR 1668 16983 25048;
  G2 XOR 25300 25173 12057; G2 XOR 16982 25173 12056; G2 AND 12057 12056 12055; G2 XOR 12055 25173 25174;
  G2 XOR 25237 25174 1667; G2 XOR 1667 16984 25049; G2 XOR 25301 25174 12054; G2 XOR 16983 25174 12053;
  G2 AND 12054 12053 12052; G2 XOR 12052 25174 25175; G2 XOR 25238 25175 1666; G2 XOR 1666 16985 25050;
  G2 XOR 25302 25175 12051; G2 XOR 16984 25175 12050; G2 AND 12051 12050 12049; G2 XOR 12049 25175 25176;
  G2 XOR 25239 25176 1665; G2 XOR 1665 16986 25051; G2 XOR 25303 25176 12048; G2 XOR 16985 25176 12047;
  G2 AND 12048 12047 12046; G2 XOR 12046 25176 25177; G2 XOR 25240 25177 1664; G2 XOR 1664 16987 25052;
  G2 XOR 25304 25177 12045; G2 XOR 16986 25177 12044; G2 AND 12045 12044 12043; G2 XOR 12043 25177 25178;
  G2 XOR 25241 25178 1663; G2 XOR 1663 16988 25053; G2 XOR 25305 25178 12042; G2 XOR 16987 25178 12041;
  G2 AND 12042 12041 12040; G2 XOR 12040 25178 25179; G2 XOR 25242 25179 1662; G2 XOR 1662 16989 25054;
  G2 XOR 25306 25179 12039; G2 XOR 16988 25179 12038; G2 AND 12039 12038 12037; G2 XOR 12037 25179 25180;
  G2 XOR 25243 25180 1661; G2 XOR 1661 16990 25055; G2 XOR 25307 25180 12036; G2 XOR 16989 25180 12035;
  G2 AND 12036 12035 12034; G2 XOR 12034 25180 25181; G2 XOR 25244 25181 1660; G2 XOR 1660 16991 25056;
  G2 XOR 25308 25181 12033; G2 XOR 16990 25181 12032; G2 AND 12033 12032 12031; G2 XOR 12031 25181 25182;
  G2 XOR 25245 25182 1659; G2 XOR 1659 16992 25057; G2 XOR 25309 25182 12030; G2 XOR 16991 25182 12029;
  G2 AND 12030 12029 12028; G2 XOR 12028 25182 25183; G2 XOR 25246 25183 1658; G2 XOR 1658 16993 25058;
  G2 XOR 25310 25183 12027; G2 XOR 16992 25183 12026; G2 AND 12027 12026 12025; G2 XOR 12025 25183 25184;
  G2 XOR 25247 25184 1657; G2 XOR 1657 16994 25059; G2 XOR 25311 25184 12024; G2 XOR 16993 25184 12023;
  G2 AND 12024 12023 12022; G2 XOR 12022 25184 25185; G2 XOR 25248 25185 1656; G2 XOR 1656 16995 25060;
  G2 XOR 25312 25185 12021; G2 XOR 16994 25185 12020; G2 AND 12021 12020 12019; G2 XOR 12019 25185 25186;
  G2 XOR 25249 25186 1655; G2 XOR 1655 16996 25061; G2 XOR 25313 25186 12018; G2 XOR 16995 25186 12017;
  G2 AND 12018 12017 12016; G2 XOR 12016 25186 25187; G2 XOR 25250 25187 1654; G2 XOR 1654 16997 25062;
  G2 XOR 25314 25187 12015; G2 XOR 16996 25187 12014; G2 AND 12015 12014 12013; G2 XOR 12013 25187 25188;
  G2 XOR 25251 25188 1653; G2 XOR 1653 16998 25063; G2 XOR 25315 25188 12012; G2 XOR 16997 25188 12011;
  G2 AND 12012 12011 12010; G2 XOR 12010 25188 25189; G2 XOR 25252 25189 1652; G2 XOR 1652 16999 25064;
  G2 XOR 25316 25189 12009; G2 XOR 16998 25189 12008; G2 AND 12009 12008 12007; G2 XOR 12007 25189 25190;
  G2 XOR 25253 25190 1651; G2 XOR 1651 17000 25065; G2 XOR 25317 25190 12006; G2 XOR 16999 25190 12005;
  G2 AND 12006 12005 12004; G2 XOR 12004 25190 25191; G2 XOR 25254 25191 1650; G2 XOR 1650 17001 25066;
  G2 XOR 25318 25191 12003; G2 XOR 17000 25191 12002; G2 AND 12003 12002 12001; G2 XOR 12001 25191 25192;
  G2 XOR 25255 25192 1649; G2 XOR 1649 17002 25067; G2 XOR 25319 25192 12000; G2 XOR 17001 25192 11999;
  G2 AND 12000 11999 11998; G2 XOR 11998 25192 25193; G2 XOR 25256 25193 1648; G2 XOR 1648 17003 25068;
  G2 XOR 25320 25193 11997; G2 XOR 17002 25193 11996; G2 AND 11997 11996 11995; G2 XOR 11995 25193 25194;
  G2 XOR 25257 25194 1647; G2 XOR 1647 17004 25069; G2 XOR 25321 25194 11994; G2 XOR 17003 25194 11993;
  G2 AND 11994 11993 11992; G2 XOR 11992 25194 25195; G2 XOR 25258 25195 1646; G2 XOR 1646 17005 25070;
  G2 XOR 25322 25195 11991; G2 XOR 17004 25195 11990; G2 AND 11991 11990 11989; G2 XOR 11989 25195 25196;
  G2 XOR 25259 25196 1645; G2 XOR 1645 17006 25071; G2 XOR 25323 25196 11988; G2 XOR 17005 25196 11987;
  G2 AND 11988 11987 11986; G2 XOR 11986 25196 25197; G2 XOR 25260 25197 1644; G2 XOR 1644 17007 25072;
  G2 XOR 25324 25197 11985; G2 XOR 17006 25197 11984; G2 AND 11985 11984 11983; G2 XOR 11983 25197 25198;
  G2 XOR 25261 25198 1643; G2 XOR 1643 17008 25073; G2 XOR 25325 25198 11982; G2 XOR 17007 25198 11981;
  G2 AND 11982 11981 11980; G2 XOR 11980 25198 25199; G2 XOR 25262 25199 1642; G2 XOR 1642 17009 25074;
  G2 XOR 25326 25199 11979; G2 XOR 17008 25199 11978; G2 AND 11979 11978 11977; G2 XOR 11977 25199 25200;
  G2 XOR 25263 25200 153; G2 AND 16670 4535 17554; G1 INV 153 16669; G2 XOR 16858 16669 25075;
  G2 XOR 1704 16669 25076; G2 XOR 1703 16669 25077; G2 XOR 1702 16669 25078; G2 XOR 1701 16669 25079;
  G2 XOR 1700 16669 25080; G2 XOR 1699 16669 25081; G2 XOR 1698 16669 25082; G2 XOR 1697 16669 25083;
  G2 XOR 1696 16669 25084; G2 XOR 1695 16669 25085; G2 XOR 1694 16669 25086; G2 XOR 1693 16669 25087;
  G2 XOR 1692 16669 25088; G2 XOR 1691 16669 25089; G2 XOR 1690 16669 25090; G2 XOR 1689 16669 25091;
  G2 XOR 1688 16669 25092; G2 XOR 1687 16669 25093; G2 XOR 1686 16669 25094; G2 XOR 1685 16669 25095;
  G2 XOR 1684 16669 25096; G2 XOR 1683 16669 25097; G2 XOR 1682 16669 25098; G2 XOR 1681 16669 25099;
  G2 XOR 1680 16669 25100; G2 XOR 1679 16669 25101; G2 XOR 1678 16669 25102; G2 XOR 1677 16669 25103;
  G2 XOR 1676 16669 25104; G2 XOR 1675 16669 25105; G2 XOR 1674 16669 25106; G2 XOR 1673 16669 25107;
  G2 XOR 1672 16669 25108; G2 XOR 1671 16669 25109; G2 XOR 1670 16669 25110; G2 XOR 1669 16669 25111;
  G2 XOR 1668 16669 25112; G2 XOR 1667 16669 25113; G2 XOR 1666 16669 25114; G2 XOR 1665 16669 25115;
  G2 XOR 1664 16669 25116; G2 XOR 1663 16669 25117; G2 XOR 1662 16669 25118; G2 XOR 1661 16669 25119;
  G2 XOR 1660 16669 25120; G2 XOR 1659 16669 25121; G2 XOR 1658 16669 25122; G2 XOR 1657 16669 25123;
  G2 XOR 1656 16669 25124; G2 XOR 1655 16669 25125; G2 XOR 1654 16669 25126; G2 XOR 1653 16669 25127;
  G2 XOR 1652 16669 25128; G2 XOR 1651 16669 25129; G2 XOR 1650 16669 25130; G2 XOR 1649 16669 25131;
  G2 XOR 1648 16669 25132; G2 XOR 1647 16669 25133; G2 XOR 1646 16669 25134; G2 XOR 1645 16669 25135;
  G2 XOR 1644 16669 25136; G2 XOR 1643 16669 25137; G2 AND 25075 16946 24949; G2 XOR 25012 24949 1766;
  G2 XOR 1766 16948 24824; G2 XOR 25076 24949 11976; G2 XOR 16947 24949 11975; G2 AND 11976 11975 11974;
  G2 XOR 11974 24949 24950; G2 XOR 25013 24950 1765; G2 XOR 1765 16949 24825; G2 XOR 25077 24950 11973;
  G2 XOR 16948 24950 11972; G2 AND 11973 11972 11971; G2 XOR 11971 24950 24951; G2 XOR 25014 24951 1764;
  G2 XOR 1764 16950 24826; G2 XOR 25078 24951 11970; G2 XOR 16949 24951 11969; G2 AND 11970 11969 11968;
  G2 XOR 11968 24951 24952; G2 XOR 25015 24952 1763; G2 XOR 1763 16951 24827; G2 XOR 25079 24952 11967;
  G2 XOR 16950 24952 11966; G2 AND 11967 11966 11965; G2 XOR 11965 24952 24953; G2 XOR 25016 24953 1762;
  G2 XOR 1762 16952 24828; G2 XOR 25080 24953 11964; G2 XOR 16951 24953 11963; G2 AND 11964 11963 11962;
  G2 XOR 11962 24953 24954; G2 XOR 25017 24954 1761; G2 XOR 1761 16953 24829; G2 XOR 25081 24954 11961;
  G2 XOR 16952 24954 11960; G2 AND 11961 11960 11959; G2 XOR 11959 24954 24955; G2 XOR 25018 24955 1760;
  G2 XOR 1760 16954 24830; G2 XOR 25082 24955 11958; G2 XOR 16953 24955 11957; G2 AND 11958 11957 11956;
  G2 XOR 11956 24955 24956; G2 XOR 25019 24956 1759; G2 XOR 1759 16955 24831; G2 XOR 25083 24956 11955;
  G2 XOR 16954 24956 11954; G2 AND 11955 11954 11953; G2 XOR 11953 24956 24957; G2 XOR 25020 24957 1758;
  G2 XOR 1758 16956 24832; G2 XOR 25084 24957 11952; G2 XOR 16955 24957 11951; G2 AND 11952 11951 11950;
  G2 XOR 11950 24957 24958; G2 XOR 25021 24958 1757; G2 XOR 1757 16957 24833; G2 XOR 25085 24958 11949;
  G2 XOR 16956 24958 11948; G2 AND 11949 11948 11947; G2 XOR 11947 24958 24959; G2 XOR 25022 24959 1756;
  G2 XOR 1756 16958 24834; G2 XOR 25086 24959 11946; G2 XOR 16957 24959 11945; G2 AND 11946 11945 11944;
  G2 XOR 11944 24959 24960; G2 XOR 25023 24960 1755; G2 XOR 1755 16959 24835; G2 XOR 25087 24960 11943;
  G2 XOR 16958 24960 11942; G2 AND 11943 11942 11941; G2 XOR 11941 24960 24961; G2 XOR 25024 24961 1754;
  G2 XOR 1754 16960 24836; G2 XOR 25088 24961 11940; G2 XOR 16959 24961 11939; G2 AND 11940 11939 11938;
  G2 XOR 11938 24961 24962; G2 XOR 25025 24962 1753; G2 XOR 1753 16961 24837; G2 XOR 25089 24962 11937;
  G2 XOR 16960 24962 11936; G2 AND 11937 11936 11935; G2 XOR 11935 24962 24963; G2 XOR 25026 24963 1752;
  G2 XOR 1752 16962 24838; G2 XOR 25090 24963 11934; G2 XOR 16961 24963 11933; G2 AND 11934 11933 11932;
  G2 XOR 11932 24963 24964; G2 XOR 25027 24964 1751; G2 XOR 1751 16963 24839; G2 XOR 25091 24964 11931;
  G2 XOR 16962 24964 11930; G2 AND 11931 11930 11929; G2 XOR 11929 24964 24965; G2 XOR 25028 24965 1750;
  G2 XOR 1750 16964 24840; G2 XOR 25092 24965 11928; G2 XOR 16963 24965 11927; G2 AND 11928 11927 11926;
  G2 XOR 11926 24965 24966; G2 XOR 25029 24966 1749; G2 XOR 1749 16965 24841; G2 XOR 25093 24966 11925;
  G2 XOR 16964 24966 11924; G2 AND 11925 11924 11923; G2 XOR 11923 24966 24967; G2 XOR 25030 24967 1748;
  G2 XOR 1748 16966 24842; G2 XOR 25094 24967 11922; G2 XOR 16965 24967 11921; G2 AND 11922 11921 11920;
  G2 XOR 11920 24967 24968; G2 XOR 25031 24968 1747; G2 XOR 1747 16967 24843; G2 XOR 25095 24968 11919;
  G2 XOR 16966 24968 11918; G2 AND 11919 11918 11917; G2 XOR 11917 24968 24969; G2 XOR 25032 24969 1746;
  G2 XOR 1746 16968 24844; G2 XOR 25096 24969 11916; G2 XOR 16967 24969 11915; G2 AND 11916 11915 11914;
  G2 XOR 11914 24969 24970; G2 XOR 25033 24970 1745; G2 XOR 1745 16969 24845; G2 XOR 25097 24970 11913;
  G2 XOR 16968 24970 11912; G2 AND 11913 11912 11911; G2 XOR 11911 24970 24971; G2 XOR 25034 24971 1744;
  G2 XOR 1744 16970 24846; G2 XOR 25098 24971 11910; G2 XOR 16969 24971 11909; G2 AND 11910 11909 11908;
  G2 XOR 11908 24971 24972; G2 XOR 25035 24972 1743; G2 XOR 1743 16971 24847; G2 XOR 25099 24972 11907;
  G2 XOR 16970 24972 11906; G2 AND 11907 11906 11905; G2 XOR 11905 24972 24973; G2 XOR 25036 24973 1742;
  G2 XOR 1742 16972 24848; G2 XOR 25100 24973 11904; G2 XOR 16971 24973 11903; G2 AND 11904 11903 11902;
  G2 XOR 11902 24973 24974; G2 XOR 25037 24974 1741; G2 XOR 1741 16973 24849; G2 XOR 25101 24974 11901;
  G2 XOR 16972 24974 11900; G2 AND 11901 11900 11899; G2 XOR 11899 24974 24975; G2 XOR 25038 24975 1740;
  G2 XOR 1740 16974 24850; G2 XOR 25102 24975 11898; G2 XOR 16973 24975 11897; G2 AND 11898 11897 11896;
  G2 XOR 11896 24975 24976; G2 XOR 25039 24976 1739; G2 XOR 1739 16975 24851; G2 XOR 25103 24976 11895;
  G2 XOR 16974 24976 11894; G2 AND 11895 11894 11893; G2 XOR 11893 24976 24977; G2 XOR 25040 24977 1738;
  G2 XOR 1738 16976 24852; G2 XOR 25104 24977 11892; G2 XOR 16975 24977 11891; G2 AND 11892 11891 11890;
  G2 XOR 11890 24977 24978; G2 XOR 25041 24978 1737; G2 XOR 1737 16977 24853; G2 XOR 25105 24978 11889;
  G2 XOR 16976 24978 11888; G2 AND 11889 11888 11887; G2 XOR 11887 24978 24979; G2 XOR 25042 24979 1736;
  G2 XOR 1736 16978 24854; G2 XOR 25106 24979 11886; G2 XOR 16977 24979 11885; G2 AND 11886 11885 11884;
  G2 XOR 11884 24979 24980; G2 XOR 25043 24980 1735; G2 XOR 1735 16979 24855; G2 XOR 25107 24980 11883;
  G2 XOR 16978 24980 11882; G2 AND 11883 11882 11881; G2 XOR 11881 24980 24981; G2 XOR 25044 24981 1734;
  G2 XOR 1734 16980 24856; G2 XOR 25108 24981 11880; G2 XOR 16979 24981 11879; G2 AND 11880 11879 11878;
  G2 XOR 11878 24981 24982; G2 XOR 25045 24982 1733; G2 XOR 1733 16981 24857; G2 XOR 25109 24982 11877;
  G2 XOR 16980 24982 11876; G2 AND 11877 11876 11875; G2 XOR 11875 24982 24983; G2 XOR 25046 24983 1732;
  G2 XOR 1732 16982 24858; G2 XOR 25110 24983 11874; G2 XOR 16981 24983 11873; G2 AND 11874 11873 11872;
  G2 XOR 11872 24983 24984; G2 XOR 25047 24984 1731; G2 XOR 1731 16983 24859; G2 XOR 25111 24984 11871;
  G2 XOR 16982 24984 11870; G2 AND 11871 11870 11869; G2 XOR 11869 24984 24985; G2 XOR 25048 24985 1730;
  G2 XOR 1730 16984 24860; G2 XOR 25112 24985 11868; G2 XOR 16983 24985 11867; G2 AND 11868 11867 11866;
  G2 XOR 11866 24985 24986; G2 XOR 25049 24986 1729; G2 XOR 1729 16985 24861; G2 XOR 25113 24986 11865;
  G2 XOR 16984 24986 11864; G2 AND 11865 11864 11863; G2 XOR 11863 24986 24987; G2 XOR 25050 24987 1728;
  G2 XOR 1728 16986 24862; G2 XOR 25114 24987 11862; G2 XOR 16985 24987 11861; G2 AND 11862 11861 11860;
  G2 XOR 11860 24987 24988; G2 XOR 25051 24988 1727; G2 XOR 1727 16987 24863; G2 XOR 25115 24988 11859;
  G2 XOR 16986 24988 11858; G2 AND 11859 11858 11857; G2 XOR 11857 24988 24989; G2 XOR 25052 24989 1726;
  G2 XOR 1726 16988 24864; G2 XOR 25116 24989 11856; G2 XOR 16987 24989 11855; G2 AND 11856 11855 11854;
  G2 XOR 11854 24989 24990; G2 XOR 25053 24990 1725; G2 XOR 1725 16989 24865; G2 XOR 25117 24990 11853;
  G2 XOR 16988 24990 11852; G2 AND 11853 11852 11851; G2 XOR 11851 24990 24991; G2 XOR 25054 24991 1724;
  G2 XOR 1724 16990 24866; G2 XOR 25118 24991 11850; G2 XOR 16989 24991 11849; G2 AND 11850 11849 11848;
  G2 XOR 11848 24991 24992; G2 XOR 25055 24992 1723; G2 XOR 1723 16991 24867; G2 XOR 25119 24992 11847;
  G2 XOR 16990 24992 11846; G2 AND 11847 11846 11845; G2 XOR 11845 24992 24993; G2 XOR 25056 24993 1722;
  G2 XOR 1722 16992 24868; G2 XOR 25120 24993 11844; G2 XOR 16991 24993 11843; G2 AND 11844 11843 11842;
  G2 XOR 11842 24993 24994; G2 XOR 25057 24994 1721; G2 XOR 1721 16993 24869; G2 XOR 25121 24994 11841;
  G2 XOR 16992 24994 11840; G2 AND 11841 11840 11839; G2 XOR 11839 24994 24995; G2 XOR 25058 24995 1720;
  G2 XOR 1720 16994 24870; G2 XOR 25122 24995 11838; G2 XOR 16993 24995 11837; G2 AND 11838 11837 11836;
  G2 XOR 11836 24995 24996; G2 XOR 25059 24996 1719; G2 XOR 1719 16995 24871; G2 XOR 25123 24996 11835;
  G2 XOR 16994 24996 11834; G2 AND 11835 11834 11833; G2 XOR 11833 24996 24997; G2 XOR 25060 24997 1718;
  G2 XOR 1718 16996 24872; G2 XOR 25124 24997 11832; G2 XOR 16995 24997 11831; G2 AND 11832 11831 11830;
  G2 XOR 11830 24997 24998; G2 XOR 25061 24998 1717; G2 XOR 1717 16997 24873; G2 XOR 25125 24998 11829;
  G2 XOR 16996 24998 11828; G2 AND 11829 11828 11827; G2 XOR 11827 24998 24999; G2 XOR 25062 24999 1716;
  G2 XOR 1716 16998 24874; G2 XOR 25126 24999 11826; G2 XOR 16997 24999 11825; G2 AND 11826 11825 11824;
  G2 XOR 11824 24999 25000; G2 XOR 25063 25000 1715; G2 XOR 1715 16999 24875; G2 XOR 25127 25000 11823;
  G2 XOR 16998 25000 11822; G2 AND 11823 11822 11821; G2 XOR 11821 25000 25001; G2 XOR 25064 25001 1714;
  G2 XOR 1714 17000 24876; G2 XOR 25128 25001 11820; G2 XOR 16999 25001 11819; G2 AND 11820 11819 11818;
  G2 XOR 11818 25001 25002; G2 XOR 25065 25002 1713; G2 XOR 1713 17001 24877; G2 XOR 25129 25002 11817;
  G2 XOR 17000 25002 11816; G2 AND 11817 11816 11815; G2 XOR 11815 25002 25003; G2 XOR 25066 25003 1712;
  G2 XOR 1712 17002 24878; G2 XOR 25130 25003 11814; G2 XOR 17001 25003 11813; G2 AND 11814 11813 11812;
  G2 XOR 11812 25003 25004; G2 XOR 25067 25004 1711; G2 XOR 1711 17003 24879; G2 XOR 25131 25004 11811;
  G2 XOR 17002 25004 11810; G2 AND 11811 11810 11809; G2 XOR 11809 25004 25005; G2 XOR 25068 25005 1710;
  G2 XOR 1710 17004 24880; G2 XOR 25132 25005 11808; G2 XOR 17003 25005 11807; G2 AND 11808 11807 11806;
  G2 XOR 11806 25005 25006; G2 XOR 25069 25006 1709; G2 XOR 1709 17005 24881; G2 XOR 25133 25006 11805;
  G2 XOR 17004 25006 11804; G2 AND 11805 11804 11803; G2 XOR 11803 25006 25007; G2 XOR 25070 25007 1708;
  G2 XOR 1708 17006 24882; G2 XOR 25134 25007 11802; G2 XOR 17005 25007 11801; G2 AND 11802 11801 11800;
  G2 XOR 11800 25007 25008; G2 XOR 25071 25008 1707; G2 XOR 1707 17007 24883; G2 XOR 25135 25008 11799;
  G2 XOR 17006 25008 11798; G2 AND 11799 11798 11797; G2 XOR 11797 25008 25009; G2 XOR 25072 25009 1706;
  G2 XOR 1706 17008 24884; G2 XOR 25136 25009 11796; G2 XOR 17007 25009 11795; G2 AND 11796 11795 11794;
  G2 XOR 11794 25009 25010; G2 XOR 25073 25010 1705; G2 XOR 1705 17009 24885; G2 XOR 25137 25010 11793;
  G2 XOR 17008 25010 11792; G2 AND 11793 11792 11791; G2 XOR 11791 25010 25011; G2 XOR 25074 25011 154;
  G1 INV 154 16668; G2 XOR 16857 16668 24886; G2 XOR 1767 16668 24887; G2 XOR 1766 16668 24888;
  G2 XOR 1765 16668 24889; G2 XOR 1764 16668 24890; G2 XOR 1763 16668 24891; G2 XOR 1762 16668 24892;
  G2 XOR 1761 16668 24893; G2 XOR 1760 16668 24894; G2 XOR 1759 16668 24895; G2 XOR 1758 16668 24896;
  G2 XOR 1757 16668 24897; G2 XOR 1756 16668 24898; G2 XOR 1755 16668 24899; G2 XOR 1754 16668 24900;
  G2 XOR 1753 16668 24901; G2 XOR 1752 16668 24902; G2 XOR 1751 16668 24903; G2 XOR 1750 16668 24904;
  G2 XOR 1749 16668 24905; G2 XOR 1748 16668 24906; G2 XOR 1747 16668 24907; G2 XOR 1746 16668 24908;
  G2 XOR 1745 16668 24909; G2 XOR 1744 16668 24910; G2 XOR 1743 16668 24911; G2 XOR 1742 16668 24912;
  G2 XOR 1741 16668 24913; G2 XOR 1740 16668 24914; G2 XOR 1739 16668 24915; G2 XOR 1738 16668 24916;
  G2 XOR 1737 16668 24917; G2 XOR 1736 16668 24918; G2 XOR 1735 16668 24919; G2 XOR 1734 16668 24920;
  G2 XOR 1733 16668 24921; G2 XOR 1732 16668 24922; G2 XOR 1731 16668 24923; G2 XOR 1730 16668 24924;
  G2 XOR 1729 16668 24925; G2 XOR 1728 16668 24926; G2 XOR 1727 16668 24927; G2 XOR 1726 16668 24928;
  G2 XOR 1725 16668 24929; G2 XOR 1724 16668 24930; G2 XOR 1723 16668 24931; G2 XOR 1722 16668 24932;
  G2 XOR 1721 16668 24933; G2 XOR 1720 16668 24934; G2 XOR 1719 16668 24935; G2 XOR 1718 16668 24936;
  G2 XOR 1717 16668 24937; G2 XOR 1716 16668 24938; G2 XOR 1715 16668 24939; G2 XOR 1714 16668 24940;
  G2 XOR 1713 16668 24941; G2 XOR 1712 16668 24942; G2 XOR 1711 16668 24943; G2 XOR 1710 16668 24944;
  G2 XOR 1709 16668 24945; G2 XOR 1708 16668 24946; G2 XOR 1707 16668 24947; G2 XOR 1706 16668 24948;
  G2 AND 24886 16946 24760; G2 XOR 24823 24760 1829; G2 XOR 1829 16948 24635; G2 XOR 24887 24760 11790;
  G2 XOR 16947 24760 11789; G2 AND 11790 11789 11788; G2 XOR 11788 24760 24761; G2 XOR 24824 24761 1828;
  G2 XOR 1828 16949 24636; G2 XOR 24888 24761 11787; G2 XOR 16948 24761 11786; G2 AND 11787 11786 11785;
  G2 XOR 11785 24761 24762; G2 XOR 24825 24762 1827; G2 XOR 1827 16950 24637; G2 XOR 24889 24762 11784;
  G2 XOR 16949 24762 11783; G2 AND 11784 11783 11782; G2 XOR 11782 24762 24763; G2 XOR 24826 24763 1826;
  G2 XOR 1826 16951 24638; G2 XOR 24890 24763 11781; G2 XOR 16950 24763 11780; G2 AND 11781 11780 11779;
  G2 XOR 11779 24763 24764; G2 XOR 24827 24764 1825; G2 XOR 1825 16952 24639; G2 XOR 24891 24764 11778;
  G2 XOR 16951 24764 11777; G2 AND 11778 11777 11776; G2 XOR 11776 24764 24765; G2 XOR 24828 24765 1824;
  G2 XOR 1824 16953 24640; G2 XOR 24892 24765 11775; G2 XOR 16952 24765 11774; G2 AND 11775 11774 11773;
  G2 XOR 11773 24765 24766; G2 XOR 24829 24766 1823; G2 XOR 1823 16954 24641; G2 XOR 24893 24766 11772;
  G2 XOR 16953 24766 11771; G2 AND 11772 11771 11770; G2 XOR 11770 24766 24767; G2 XOR 24830 24767 1822;
  G2 XOR 1822 16955 24642; G2 XOR 24894 24767 11769; G2 XOR 16954 24767 11768; G2 AND 11769 11768 11767;
  G2 XOR 11767 24767 24768; G2 XOR 24831 24768 1821; G2 XOR 1821 16956 24643; G2 XOR 24895 24768 11766;
  G2 XOR 16955 24768 11765; G2 AND 11766 11765 11764; G2 XOR 11764 24768 24769; G2 XOR 24832 24769 1820;
  G2 XOR 1820 16957 24644; G2 XOR 24896 24769 11763; G2 XOR 16956 24769 11762; G2 AND 11763 11762 11761;
  G2 XOR 11761 24769 24770; G2 XOR 24833 24770 1819; G2 XOR 1819 16958 24645; G2 XOR 24897 24770 11760;
  G2 XOR 16957 24770 11759; G2 AND 11760 11759 11758; G2 XOR 11758 24770 24771; G2 XOR 24834 24771 1818;
  G2 XOR 1818 16959 24646; G2 XOR 24898 24771 11757; G2 XOR 16958 24771 11756; G2 AND 11757 11756 11755;
  G2 XOR 11755 24771 24772; G2 XOR 24835 24772 1817; G2 XOR 1817 16960 24647; G2 XOR 24899 24772 11754;
  G2 XOR 16959 24772 11753; G2 AND 11754 11753 11752; G2 XOR 11752 24772 24773; G2 XOR 24836 24773 1816;
  G2 XOR 1816 16961 24648; G2 XOR 24900 24773 11751; G2 XOR 16960 24773 11750; G2 AND 11751 11750 11749;
  G2 XOR 11749 24773 24774; G2 XOR 24837 24774 1815; G2 XOR 1815 16962 24649; G2 XOR 24901 24774 11748;
  G2 XOR 16961 24774 11747; G2 AND 11748 11747 11746; G2 XOR 11746 24774 24775; G2 XOR 24838 24775 1814;
  G2 XOR 1814 16963 24650; G2 XOR 24902 24775 11745; G2 XOR 16962 24775 11744; G2 AND 11745 11744 11743;
  G2 XOR 11743 24775 24776; G2 XOR 24839 24776 1813; G2 XOR 1813 16964 24651; G2 XOR 24903 24776 11742;
  G2 XOR 16963 24776 11741; G2 AND 11742 11741 11740; G2 XOR 11740 24776 24777; G2 XOR 24840 24777 1812;
  G2 XOR 1812 16965 24652; G2 XOR 24904 24777 11739; G2 XOR 16964 24777 11738; G2 AND 11739 11738 11737;
  G2 XOR 11737 24777 24778; G2 XOR 24841 24778 1811; G2 XOR 1811 16966 24653; G2 XOR 24905 24778 11736;
  G2 XOR 16965 24778 11735; G2 AND 11736 11735 11734; G2 XOR 11734 24778 24779; G2 XOR 24842 24779 1810;
  G2 XOR 1810 16967 24654; G2 XOR 24906 24779 11733; G2 XOR 16966 24779 11732; G2 AND 11733 11732 11731;
  G2 XOR 11731 24779 24780; G2 XOR 24843 24780 1809; G2 XOR 1809 16968 24655; G2 XOR 24907 24780 11730;
  G2 XOR 16967 24780 11729; G2 AND 11730 11729 11728; G2 XOR 11728 24780 24781; G2 XOR 24844 24781 1808;
  G2 XOR 1808 16969 24656; G2 XOR 24908 24781 11727; G2 XOR 16968 24781 11726; G2 AND 11727 11726 11725;
  G2 XOR 11725 24781 24782; G2 XOR 24845 24782 1807; G2 XOR 1807 16970 24657; G2 XOR 24909 24782 11724;
  G2 XOR 16969 24782 11723; G2 AND 11724 11723 11722; G2 XOR 11722 24782 24783; G2 XOR 24846 24783 1806;
  G2 XOR 1806 16971 24658; G2 XOR 24910 24783 11721; G2 XOR 16970 24783 11720; G2 AND 11721 11720 11719;
  G2 XOR 11719 24783 24784; G2 XOR 24847 24784 1805; G2 XOR 1805 16972 24659; G2 XOR 24911 24784 11718;
  G2 XOR 16971 24784 11717; G2 AND 11718 11717 11716; G2 XOR 11716 24784 24785; G2 XOR 24848 24785 1804;
  G2 XOR 1804 16973 24660; G2 XOR 24912 24785 11715; G2 XOR 16972 24785 11714; G2 AND 11715 11714 11713;
  G2 XOR 11713 24785 24786; G2 XOR 24849 24786 1803; G2 XOR 1803 16974 24661; G2 XOR 24913 24786 11712;
  G2 XOR 16973 24786 11711; G2 AND 11712 11711 11710; G2 XOR 11710 24786 24787; G2 XOR 24850 24787 1802;
  G2 XOR 1802 16975 24662; G2 XOR 24914 24787 11709; G2 XOR 16974 24787 11708; G2 AND 11709 11708 11707;
  G2 XOR 11707 24787 24788; G2 XOR 24851 24788 1801; G2 XOR 1801 16976 24663; G2 XOR 24915 24788 11706;
  G2 XOR 16975 24788 11705; G2 AND 11706 11705 11704; G2 XOR 11704 24788 24789; G2 XOR 24852 24789 1800;
  G2 XOR 1800 16977 24664; G2 XOR 24916 24789 11703; G2 XOR 16976 24789 11702; G2 AND 11703 11702 11701;
  G2 XOR 11701 24789 24790; G2 XOR 24853 24790 1799; G2 XOR 1799 16978 24665; G2 XOR 24917 24790 11700;
  G2 XOR 16977 24790 11699; G2 AND 11700 11699 11698; G2 XOR 11698 24790 24791; G2 XOR 24854 24791 1798;
  G2 XOR 1798 16979 24666; G2 XOR 24918 24791 11697; G2 XOR 16978 24791 11696; G2 AND 11697 11696 11695;
  G2 XOR 11695 24791 24792; G2 XOR 24855 24792 1797; G2 XOR 1797 16980 24667; G2 XOR 24919 24792 11694;
  G2 XOR 16979 24792 11693; G2 AND 11694 11693 11692; G2 XOR 11692 24792 24793; G2 XOR 24856 24793 1796;
  G2 XOR 1796 16981 24668; G2 XOR 24920 24793 11691; G2 XOR 16980 24793 11690; G2 AND 11691 11690 11689;
  G2 XOR 11689 24793 24794; G2 XOR 24857 24794 1795; G2 XOR 1795 16982 24669; G2 XOR 24921 24794 11688;
  G2 XOR 16981 24794 11687; G2 AND 11688 11687 11686; G2 XOR 11686 24794 24795; G2 XOR 24858 24795 1794;
  G2 XOR 1794 16983 24670; G2 XOR 24922 24795 11685; G2 XOR 16982 24795 11684; G2 AND 11685 11684 11683;
  G2 XOR 11683 24795 24796; G2 XOR 24859 24796 1793; G2 XOR 1793 16984 24671; G2 XOR 24923 24796 11682;
  G2 XOR 16983 24796 11681; G2 AND 11682 11681 11680; G2 XOR 11680 24796 24797; G2 XOR 24860 24797 1792;
  G2 XOR 1792 16985 24672; G2 XOR 24924 24797 11679; G2 XOR 16984 24797 11678; G2 AND 11679 11678 11677;
  G2 XOR 11677 24797 24798; G2 XOR 24861 24798 1791; G2 XOR 1791 16986 24673; G2 XOR 24925 24798 11676;
  G2 XOR 16985 24798 11675; G2 AND 11676 11675 11674; G2 XOR 11674 24798 24799; G2 XOR 24862 24799 1790;
  G2 XOR 1790 16987 24674; G2 XOR 24926 24799 11673; G2 XOR 16986 24799 11672; G2 AND 11673 11672 11671;
  G2 XOR 11671 24799 24800; G2 XOR 24863 24800 1789; G2 XOR 1789 16988 24675; G2 XOR 24927 24800 11670;
  G2 XOR 16987 24800 11669; G2 AND 11670 11669 11668; G2 XOR 11668 24800 24801; G2 XOR 24864 24801 1788;
  G2 XOR 1788 16989 24676; G2 XOR 24928 24801 11667; G2 XOR 16988 24801 11666; G2 AND 11667 11666 11665;
  G2 XOR 11665 24801 24802; G2 XOR 24865 24802 1787; G2 XOR 1787 16990 24677; G2 XOR 24929 24802 11664;
  G2 XOR 16989 24802 11663; G2 AND 11664 11663 11662; G2 XOR 11662 24802 24803; G2 XOR 24866 24803 1786;
  G2 XOR 1786 16991 24678; G2 XOR 24930 24803 11661; G2 XOR 16990 24803 11660; G2 AND 11661 11660 11659;
  G2 XOR 11659 24803 24804; G2 XOR 24867 24804 1785; G2 XOR 1785 16992 24679; G2 XOR 24931 24804 11658;
  G2 XOR 16991 24804 11657; G2 AND 11658 11657 11656; G2 XOR 11656 24804 24805; G2 XOR 24868 24805 1784;
  G2 XOR 1784 16993 24680; G2 XOR 24932 24805 11655; G2 XOR 16992 24805 11654; G2 AND 11655 11654 11653;
  G2 XOR 11653 24805 24806; G2 XOR 24869 24806 1783; G2 XOR 1783 16994 24681; G2 XOR 24933 24806 11652;
  G2 XOR 16993 24806 11651; G2 AND 11652 11651 11650; G2 XOR 11650 24806 24807; G2 XOR 24870 24807 1782;
  G2 XOR 1782 16995 24682; G2 XOR 24934 24807 11649; G2 XOR 16994 24807 11648; G2 AND 11649 11648 11647;
  G2 XOR 11647 24807 24808; G2 XOR 24871 24808 1781; G2 XOR 1781 16996 24683; G2 XOR 24935 24808 11646;
  G2 XOR 16995 24808 11645; G2 AND 11646 11645 11644; G2 XOR 11644 24808 24809; G2 XOR 24872 24809 1780;
  G2 XOR 1780 16997 24684; G2 XOR 24936 24809 11643; G2 XOR 16996 24809 11642; G2 AND 11643 11642 11641;
  G2 XOR 11641 24809 24810; G2 XOR 24873 24810 1779; G2 XOR 1779 16998 24685; G2 XOR 24937 24810 11640;
  G2 XOR 16997 24810 11639; G2 AND 11640 11639 11638; G2 XOR 11638 24810 24811; G2 XOR 24874 24811 1778;
  G2 XOR 1778 16999 24686; G2 XOR 24938 24811 11637; G2 XOR 16998 24811 11636; G2 AND 11637 11636 11635;
  G2 XOR 11635 24811 24812; G2 XOR 24875 24812 1777; G2 XOR 1777 17000 24687; G2 XOR 24939 24812 11634;
  G2 XOR 16999 24812 11633; G2 AND 11634 11633 11632; G2 XOR 11632 24812 24813; G2 XOR 24876 24813 1776;
  G2 XOR 1776 17001 24688; G2 XOR 24940 24813 11631; G2 XOR 17000 24813 11630; G2 AND 11631 11630 11629;
  G2 XOR 11629 24813 24814; G2 XOR 24877 24814 1775; G2 XOR 1775 17002 24689; G2 XOR 24941 24814 11628;
  G2 XOR 17001 24814 11627; G2 AND 11628 11627 11626; G2 XOR 11626 24814 24815; G2 XOR 24878 24815 1774;
  G2 XOR 1774 17003 24690; G2 XOR 24942 24815 11625; G2 XOR 17002 24815 11624; G2 AND 11625 11624 11623;
  G2 XOR 11623 24815 24816; G2 XOR 24879 24816 1773; G2 XOR 1773 17004 24691; G2 XOR 24943 24816 11622;
  G2 XOR 17003 24816 11621; G2 AND 11622 11621 11620; G2 XOR 11620 24816 24817; G2 XOR 24880 24817 1772;
  G2 XOR 1772 17005 24692; G2 XOR 24944 24817 11619; G2 XOR 17004 24817 11618; G2 AND 11619 11618 11617;
  G2 XOR 11617 24817 24818; G2 XOR 24881 24818 1771; G2 XOR 1771 17006 24693; G2 XOR 24945 24818 11616;
  G2 XOR 17005 24818 11615; G2 AND 11616 11615 11614; G2 XOR 11614 24818 24819; G2 XOR 24882 24819 1770;
  G2 XOR 1770 17007 24694; G2 XOR 24946 24819 11613; G2 XOR 17006 24819 11612; G2 AND 11613 11612 11611;
  G2 XOR 11611 24819 24820; G2 XOR 24883 24820 1769; G2 XOR 1769 17008 24695; G2 XOR 24947 24820 11610;
  G2 XOR 17007 24820 11609; G2 AND 11610 11609 11608; G2 XOR 11608 24820 24821; G2 XOR 24884 24821 1768;
  G2 XOR 1768 17009 24696; G2 XOR 24948 24821 11607; G2 XOR 17008 24821 11606; G2 AND 11607 11606 11605;
  G2 XOR 11605 24821 24822; G2 XOR 24885 24822 155; G2 AND 16668 4535 17552; G1 INV 155 16667;
  G2 XOR 16856 16667 24697; G2 XOR 1830 16667 24698; G2 XOR 1829 16667 24699; G2 XOR 1828 16667 24700;
  G2 XOR 1827 16667 24701; G2 XOR 1826 16667 24702; G2 XOR 1825 16667 24703; G2 XOR 1824 16667 24704;
  G2 XOR 1823 16667 24705; G2 XOR 1822 16667 24706; G2 XOR 1821 16667 24707; G2 XOR 1820 16667 24708;
  G2 XOR 1819 16667 24709; G2 XOR 1818 16667 24710; G2 XOR 1817 16667 24711; G2 XOR 1816 16667 24712;
  G2 XOR 1815 16667 24713; G2 XOR 1814 16667 24714; G2 XOR 1813 16667 24715; G2 XOR 1812 16667 24716;
  G2 XOR 1811 16667 24717; G2 XOR 1810 16667 24718; G2 XOR 1809 16667 24719; G2 XOR 1808 16667 24720;
  G2 XOR 1807 16667 24721; G2 XOR 1806 16667 24722; G2 XOR 1805 16667 24723; G2 XOR 1804 16667 24724;
  G2 XOR 1803 16667 24725; G2 XOR 1802 16667 24726; G2 XOR 1801 16667 24727; G2 XOR 1800 16667 24728;
  G2 XOR 1799 16667 24729; G2 XOR 1798 16667 24730; G2 XOR 1797 16667 24731; G2 XOR 1796 16667 24732;
  G2 XOR 1795 16667 24733; G2 XOR 1794 16667 24734; G2 XOR 1793 16667 24735; G2 XOR 1792 16667 24736;
  G2 XOR 1791 16667 24737; G2 XOR 1790 16667 24738; G2 XOR 1789 16667 24739; G2 XOR 1788 16667 24740;
  G2 XOR 1787 16667 24741; G2 XOR 1786 16667 24742; G2 XOR 1785 16667 24743; G2 XOR 1784 16667 24744;
  G2 XOR 1783 16667 24745; G2 XOR 1782 16667 24746; G2 XOR 1781 16667 24747; G2 XOR 1780 16667 24748;
  G2 XOR 1779 16667 24749; G2 XOR 1778 16667 24750; G2 XOR 1777 16667 24751; G2 XOR 1776 16667 24752;
  G2 XOR 1775 16667 24753; G2 XOR 1774 16667 24754; G2 XOR 1773 16667 24755; G2 XOR 1772 16667 24756;
  G2 XOR 1771 16667 24757; G2 XOR 1770 16667 24758; G2 XOR 1769 16667 24759; G2 AND 24697 16946 24571;
  G2 XOR 24634 24571 1892; G2 XOR 1892 16948 24446; G2 XOR 24698 24571 11604; G2 XOR 16947 24571 11603;
  G2 AND 11604 11603 11602; G2 XOR 11602 24571 24572; G2 XOR 24635 24572 1891; G2 XOR 1891 16949 24447;
  G2 XOR 24699 24572 11601; G2 XOR 16948 24572 11600; G2 AND 11601 11600 11599; G2 XOR 11599 24572 24573;
  G2 XOR 24636 24573 1890; G2 XOR 1890 16950 24448; G2 XOR 24700 24573 11598; G2 XOR 16949 24573 11597;
  G2 AND 11598 11597 11596; G2 XOR 11596 24573 24574; G2 XOR 24637 24574 1889; G2 XOR 1889 16951 24449;
  G2 XOR 24701 24574 11595; G2 XOR 16950 24574 11594; G2 AND 11595 11594 11593; G2 XOR 11593 24574 24575;
  G2 XOR 24638 24575 1888; G2 XOR 1888 16952 24450; G2 XOR 24702 24575 11592; G2 XOR 16951 24575 11591;
  G2 AND 11592 11591 11590; G2 XOR 11590 24575 24576; G2 XOR 24639 24576 1887; G2 XOR 1887 16953 24451;
  G2 XOR 24703 24576 11589; G2 XOR 16952 24576 11588; G2 AND 11589 11588 11587; G2 XOR 11587 24576 24577;
  G2 XOR 24640 24577 1886; G2 XOR 1886 16954 24452; G2 XOR 24704 24577 11586; G2 XOR 16953 24577 11585;
  G2 AND 11586 11585 11584; G2 XOR 11584 24577 24578; G2 XOR 24641 24578 1885; G2 XOR 1885 16955 24453;
  G2 XOR 24705 24578 11583; G2 XOR 16954 24578 11582; G2 AND 11583 11582 11581; G2 XOR 11581 24578 24579;
  G2 XOR 24642 24579 1884; G2 XOR 1884 16956 24454; G2 XOR 24706 24579 11580; G2 XOR 16955 24579 11579;
  G2 AND 11580 11579 11578; G2 XOR 11578 24579 24580; G2 XOR 24643 24580 1883; G2 XOR 1883 16957 24455;
  G2 XOR 24707 24580 11577; G2 XOR 16956 24580 11576; G2 AND 11577 11576 11575; G2 XOR 11575 24580 24581;
  G2 XOR 24644 24581 1882; G2 XOR 1882 16958 24456; G2 XOR 24708 24581 11574; G2 XOR 16957 24581 11573;
  G2 AND 11574 11573 11572; G2 XOR 11572 24581 24582; G2 XOR 24645 24582 1881; G2 XOR 1881 16959 24457;
  G2 XOR 24709 24582 11571; G2 XOR 16958 24582 11570; G2 AND 11571 11570 11569; G2 XOR 11569 24582 24583;
  G2 XOR 24646 24583 1880; G2 XOR 1880 16960 24458; G2 XOR 24710 24583 11568; G2 XOR 16959 24583 11567;
  G2 AND 11568 11567 11566; G2 XOR 11566 24583 24584; G2 XOR 24647 24584 1879; G2 XOR 1879 16961 24459;
  G2 XOR 24711 24584 11565; G2 XOR 16960 24584 11564; G2 AND 11565 11564 11563; G2 XOR 11563 24584 24585;
  G2 XOR 24648 24585 1878; G2 XOR 1878 16962 24460; G2 XOR 24712 24585 11562; G2 XOR 16961 24585 11561;
  G2 AND 11562 11561 11560; G2 XOR 11560 24585 24586; G2 XOR 24649 24586 1877; G2 XOR 1877 16963 24461;
  G2 XOR 24713 24586 11559; G2 XOR 16962 24586 11558; G2 AND 11559 11558 11557; G2 XOR 11557 24586 24587;
  G2 XOR 24650 24587 1876; G2 XOR 1876 16964 24462; G2 XOR 24714 24587 11556; G2 XOR 16963 24587 11555;
  G2 AND 11556 11555 11554; G2 XOR 11554 24587 24588; G2 XOR 24651 24588 1875; G2 XOR 1875 16965 24463;
  G2 XOR 24715 24588 11553; G2 XOR 16964 24588 11552; G2 AND 11553 11552 11551; G2 XOR 11551 24588 24589;
  G2 XOR 24652 24589 1874; G2 XOR 1874 16966 24464; G2 XOR 24716 24589 11550; G2 XOR 16965 24589 11549;
  G2 AND 11550 11549 11548; G2 XOR 11548 24589 24590; G2 XOR 24653 24590 1873; G2 XOR 1873 16967 24465;
  G2 XOR 24717 24590 11547; G2 XOR 16966 24590 11546; G2 AND 11547 11546 11545; G2 XOR 11545 24590 24591;
  G2 XOR 24654 24591 1872; G2 XOR 1872 16968 24466; G2 XOR 24718 24591 11544; G2 XOR 16967 24591 11543;
  G2 AND 11544 11543 11542; G2 XOR 11542 24591 24592; G2 XOR 24655 24592 1871; G2 XOR 1871 16969 24467;
  G2 XOR 24719 24592 11541; G2 XOR 16968 24592 11540; G2 AND 11541 11540 11539; G2 XOR 11539 24592 24593;
  G2 XOR 24656 24593 1870; G2 XOR 1870 16970 24468; G2 XOR 24720 24593 11538; G2 XOR 16969 24593 11537;
  G2 AND 11538 11537 11536; G2 XOR 11536 24593 24594; G2 XOR 24657 24594 1869; G2 XOR 1869 16971 24469;
  G2 XOR 24721 24594 11535; G2 XOR 16970 24594 11534; G2 AND 11535 11534 11533; G2 XOR 11533 24594 24595;
  G2 XOR 24658 24595 1868; G2 XOR 1868 16972 24470; G2 XOR 24722 24595 11532; G2 XOR 16971 24595 11531;
  G2 AND 11532 11531 11530; G2 XOR 11530 24595 24596; G2 XOR 24659 24596 1867; G2 XOR 1867 16973 24471;
  G2 XOR 24723 24596 11529; G2 XOR 16972 24596 11528; G2 AND 11529 11528 11527; G2 XOR 11527 24596 24597;
  G2 XOR 24660 24597 1866; G2 XOR 1866 16974 24472; G2 XOR 24724 24597 11526; G2 XOR 16973 24597 11525;
  G2 AND 11526 11525 11524; G2 XOR 11524 24597 24598; G2 XOR 24661 24598 1865; G2 XOR 1865 16975 24473;
  G2 XOR 24725 24598 11523; G2 XOR 16974 24598 11522; G2 AND 11523 11522 11521; G2 XOR 11521 24598 24599;
  G2 XOR 24662 24599 1864; G2 XOR 1864 16976 24474; G2 XOR 24726 24599 11520; G2 XOR 16975 24599 11519;
  G2 AND 11520 11519 11518; G2 XOR 11518 24599 24600; G2 XOR 24663 24600 1863; G2 XOR 1863 16977 24475;
  G2 XOR 24727 24600 11517; G2 XOR 16976 24600 11516; G2 AND 11517 11516 11515; G2 XOR 11515 24600 24601;
  G2 XOR 24664 24601 1862; G2 XOR 1862 16978 24476; G2 XOR 24728 24601 11514; G2 XOR 16977 24601 11513;
  G2 AND 11514 11513 11512; G2 XOR 11512 24601 24602; G2 XOR 24665 24602 1861; G2 XOR 1861 16979 24477;
  G2 XOR 24729 24602 11511; G2 XOR 16978 24602 11510; G2 AND 11511 11510 11509; G2 XOR 11509 24602 24603;
  G2 XOR 24666 24603 1860; G2 XOR 1860 16980 24478; G2 XOR 24730 24603 11508; G2 XOR 16979 24603 11507;
  G2 AND 11508 11507 11506; G2 XOR 11506 24603 24604; G2 XOR 24667 24604 1859; G2 XOR 1859 16981 24479;
  G2 XOR 24731 24604 11505; G2 XOR 16980 24604 11504; G2 AND 11505 11504 11503; G2 XOR 11503 24604 24605;
  G2 XOR 24668 24605 1858; G2 XOR 1858 16982 24480; G2 XOR 24732 24605 11502; G2 XOR 16981 24605 11501;
  G2 AND 11502 11501 11500; G2 XOR 11500 24605 24606; G2 XOR 24669 24606 1857; G2 XOR 1857 16983 24481;
  G2 XOR 24733 24606 11499; G2 XOR 16982 24606 11498; G2 AND 11499 11498 11497; G2 XOR 11497 24606 24607;
  G2 XOR 24670 24607 1856; G2 XOR 1856 16984 24482; G2 XOR 24734 24607 11496; G2 XOR 16983 24607 11495;
  G2 AND 11496 11495 11494; G2 XOR 11494 24607 24608; G2 XOR 24671 24608 1855; G2 XOR 1855 16985 24483;
  G2 XOR 24735 24608 11493; G2 XOR 16984 24608 11492; G2 AND 11493 11492 11491; G2 XOR 11491 24608 24609;
  G2 XOR 24672 24609 1854; G2 XOR 1854 16986 24484; G2 XOR 24736 24609 11490; G2 XOR 16985 24609 11489;
  G2 AND 11490 11489 11488; G2 XOR 11488 24609 24610; G2 XOR 24673 24610 1853; G2 XOR 1853 16987 24485;
  G2 XOR 24737 24610 11487; G2 XOR 16986 24610 11486; G2 AND 11487 11486 11485; G2 XOR 11485 24610 24611;
  G2 XOR 24674 24611 1852; G2 XOR 1852 16988 24486; G2 XOR 24738 24611 11484; G2 XOR 16987 24611 11483;
  G2 AND 11484 11483 11482; G2 XOR 11482 24611 24612; G2 XOR 24675 24612 1851; G2 XOR 1851 16989 24487;
  G2 XOR 24739 24612 11481; G2 XOR 16988 24612 11480; G2 AND 11481 11480 11479; G2 XOR 11479 24612 24613;
  G2 XOR 24676 24613 1850; G2 XOR 1850 16990 24488; G2 XOR 24740 24613 11478; G2 XOR 16989 24613 11477;
  G2 AND 11478 11477 11476; G2 XOR 11476 24613 24614; G2 XOR 24677 24614 1849; G2 XOR 1849 16991 24489;
  G2 XOR 24741 24614 11475; G2 XOR 16990 24614 11474; G2 AND 11475 11474 11473; G2 XOR 11473 24614 24615;
  G2 XOR 24678 24615 1848; G2 XOR 1848 16992 24490; G2 XOR 24742 24615 11472; G2 XOR 16991 24615 11471;
  G2 AND 11472 11471 11470; G2 XOR 11470 24615 24616; G2 XOR 24679 24616 1847; G2 XOR 1847 16993 24491;
  G2 XOR 24743 24616 11469; G2 XOR 16992 24616 11468; G2 AND 11469 11468 11467; G2 XOR 11467 24616 24617;
  G2 XOR 24680 24617 1846; G2 XOR 1846 16994 24492; G2 XOR 24744 24617 11466; G2 XOR 16993 24617 11465;
  G2 AND 11466 11465 11464; G2 XOR 11464 24617 24618; G2 XOR 24681 24618 1845; G2 XOR 1845 16995 24493;
  G2 XOR 24745 24618 11463; G2 XOR 16994 24618 11462; G2 AND 11463 11462 11461; G2 XOR 11461 24618 24619;
  G2 XOR 24682 24619 1844; G2 XOR 1844 16996 24494; G2 XOR 24746 24619 11460; G2 XOR 16995 24619 11459;
  G2 AND 11460 11459 11458; G2 XOR 11458 24619 24620; G2 XOR 24683 24620 1843; G2 XOR 1843 16997 24495;
  G2 XOR 24747 24620 11457; G2 XOR 16996 24620 11456; G2 AND 11457 11456 11455; G2 XOR 11455 24620 24621;
  G2 XOR 24684 24621 1842; G2 XOR 1842 16998 24496; G2 XOR 24748 24621 11454; G2 XOR 16997 24621 11453;
  G2 AND 11454 11453 11452; G2 XOR 11452 24621 24622; G2 XOR 24685 24622 1841; G2 XOR 1841 16999 24497;
  G2 XOR 24749 24622 11451; G2 XOR 16998 24622 11450; G2 AND 11451 11450 11449; G2 XOR 11449 24622 24623;
  G2 XOR 24686 24623 1840; G2 XOR 1840 17000 24498; G2 XOR 24750 24623 11448; G2 XOR 16999 24623 11447;
  G2 AND 11448 11447 11446; G2 XOR 11446 24623 24624; G2 XOR 24687 24624 1839; G2 XOR 1839 17001 24499;
  G2 XOR 24751 24624 11445; G2 XOR 17000 24624 11444; G2 AND 11445 11444 11443; G2 XOR 11443 24624 24625;
  G2 XOR 24688 24625 1838; G2 XOR 1838 17002 24500; G2 XOR 24752 24625 11442; G2 XOR 17001 24625 11441;
  G2 AND 11442 11441 11440; G2 XOR 11440 24625 24626; G2 XOR 24689 24626 1837; G2 XOR 1837 17003 24501;
  G2 XOR 24753 24626 11439; G2 XOR 17002 24626 11438; G2 AND 11439 11438 11437; G2 XOR 11437 24626 24627;
  G2 XOR 24690 24627 1836; G2 XOR 1836 17004 24502; G2 XOR 24754 24627 11436; G2 XOR 17003 24627 11435;
  G2 AND 11436 11435 11434; G2 XOR 11434 24627 24628; G2 XOR 24691 24628 1835; G2 XOR 1835 17005 24503;
  G2 XOR 24755 24628 11433; G2 XOR 17004 24628 11432; G2 AND 11433 11432 11431; G2 XOR 11431 24628 24629;
  G2 XOR 24692 24629 1834; G2 XOR 1834 17006 24504; G2 XOR 24756 24629 11430; G2 XOR 17005 24629 11429;
  G2 AND 11430 11429 11428; G2 XOR 11428 24629 24630; G2 XOR 24693 24630 1833; G2 XOR 1833 17007 24505;
  G2 XOR 24757 24630 11427; G2 XOR 17006 24630 11426; G2 AND 11427 11426 11425; G2 XOR 11425 24630 24631;
  G2 XOR 24694 24631 1832; G2 XOR 1832 17008 24506; G2 XOR 24758 24631 11424; G2 XOR 17007 24631 11423;
  G2 AND 11424 11423 11422; G2 XOR 11422 24631 24632; G2 XOR 24695 24632 1831; G2 XOR 1831 17009 24507;
  G2 XOR 24759 24632 11421; G2 XOR 17008 24632 11420; G2 AND 11421 11420 11419; G2 XOR 11419 24632 24633;
  G2 XOR 24696 24633 156; G1 INV 156 16666; G2 XOR 16855 16666 24508; G2 XOR 1893 16666 24509;
  G2 XOR 1892 16666 24510; G2 XOR 1891 16666 24511; G2 XOR 1890 16666 24512; G2 XOR 1889 16666 24513;
  G2 XOR 1888 16666 24514; G2 XOR 1887 16666 24515; G2 XOR 1886 16666 24516; G2 XOR 1885 16666 24517;
  G2 XOR 1884 16666 24518; G2 XOR 1883 16666 24519; G2 XOR 1882 16666 24520; G2 XOR 1881 16666 24521;
  G2 XOR 1880 16666 24522; G2 XOR 1879 16666 24523; G2 XOR 1878 16666 24524; G2 XOR 1877 16666 24525;
  G2 XOR 1876 16666 24526; G2 XOR 1875 16666 24527; G2 XOR 1874 16666 24528; G2 XOR 1873 16666 24529;
  G2 XOR 1872 16666 24530; G2 XOR 1871 16666 24531; G2 XOR 1870 16666 24532; G2 XOR 1869 16666 24533;
  G2 XOR 1868 16666 24534; G2 XOR 1867 16666 24535; G2 XOR 1866 16666 24536; G2 XOR 1865 16666 24537;
  G2 XOR 1864 16666 24538; G2 XOR 1863 16666 24539; G2 XOR 1862 16666 24540; G2 XOR 1861 16666 24541;
  G2 XOR 1860 16666 24542; G2 XOR 1859 16666 24543; G2 XOR 1858 16666 24544; G2 XOR 1857 16666 24545;
  G2 XOR 1856 16666 24546; G2 XOR 1855 16666 24547; G2 XOR 1854 16666 24548; G2 XOR 1853 16666 24549;
  G2 XOR 1852 16666 24550; G2 XOR 1851 16666 24551; G2 XOR 1850 16666 24552; G2 XOR 1849 16666 24553;
  G2 XOR 1848 16666 24554; G2 XOR 1847 16666 24555; G2 XOR 1846 16666 24556; G2 XOR 1845 16666 24557;
  G2 XOR 1844 16666 24558; G2 XOR 1843 16666 24559; G2 XOR 1842 16666 24560; G2 XOR 1841 16666 24561;
  G2 XOR 1840 16666 24562; G2 XOR 1839 16666 24563; G2 XOR 1838 16666 24564; G2 XOR 1837 16666 24565;
  G2 XOR 1836 16666 24566; G2 XOR 1835 16666 24567; G2 XOR 1834 16666 24568; G2 XOR 1833 16666 24569;
  G2 XOR 1832 16666 24570; G2 AND 24508 16946 24382; G2 XOR 24445 24382 1955; G2 XOR 1955 16948 24257;
  G2 XOR 24509 24382 11418; G2 XOR 16947 24382 11417; G2 AND 11418 11417 11416; G2 XOR 11416 24382 24383;
  G2 XOR 24446 24383 1954; G2 XOR 1954 16949 24258; G2 XOR 24510 24383 11415; G2 XOR 16948 24383 11414;
  G2 AND 11415 11414 11413; G2 XOR 11413 24383 24384; G2 XOR 24447 24384 1953; G2 XOR 1953 16950 24259;
  G2 XOR 24511 24384 11412; G2 XOR 16949 24384 11411; G2 AND 11412 11411 11410; G2 XOR 11410 24384 24385;
  G2 XOR 24448 24385 1952; G2 XOR 1952 16951 24260; G2 XOR 24512 24385 11409; G2 XOR 16950 24385 11408;
  G2 AND 11409 11408 11407; G2 XOR 11407 24385 24386; G2 XOR 24449 24386 1951; G2 XOR 1951 16952 24261;
  G2 XOR 24513 24386 11406; G2 XOR 16951 24386 11405; G2 AND 11406 11405 11404; G2 XOR 11404 24386 24387;
  G2 XOR 24450 24387 1950; G2 XOR 1950 16953 24262; G2 XOR 24514 24387 11403; G2 XOR 16952 24387 11402;
  G2 AND 11403 11402 11401; G2 XOR 11401 24387 24388; G2 XOR 24451 24388 1949; G2 XOR 1949 16954 24263;
  G2 XOR 24515 24388 11400; G2 XOR 16953 24388 11399; G2 AND 11400 11399 11398; G2 XOR 11398 24388 24389;
  G2 XOR 24452 24389 1948; G2 XOR 1948 16955 24264; G2 XOR 24516 24389 11397; G2 XOR 16954 24389 11396;
  G2 AND 11397 11396 11395; G2 XOR 11395 24389 24390; G2 XOR 24453 24390 1947; G2 XOR 1947 16956 24265;
  G2 XOR 24517 24390 11394; G2 XOR 16955 24390 11393; G2 AND 11394 11393 11392; G2 XOR 11392 24390 24391;
  G2 XOR 24454 24391 1946; G2 XOR 1946 16957 24266; G2 XOR 24518 24391 11391; G2 XOR 16956 24391 11390;
  G2 AND 11391 11390 11389; G2 XOR 11389 24391 24392; G2 XOR 24455 24392 1945; G2 XOR 1945 16958 24267;
  G2 XOR 24519 24392 11388; G2 XOR 16957 24392 11387; G2 AND 11388 11387 11386; G2 XOR 11386 24392 24393;
  G2 XOR 24456 24393 1944; G2 XOR 1944 16959 24268; G2 XOR 24520 24393 11385; G2 XOR 16958 24393 11384;
  G2 AND 11385 11384 11383; G2 XOR 11383 24393 24394; G2 XOR 24457 24394 1943; G2 XOR 1943 16960 24269;
  G2 XOR 24521 24394 11382; G2 XOR 16959 24394 11381; G2 AND 11382 11381 11380; G2 XOR 11380 24394 24395;
  G2 XOR 24458 24395 1942; G2 XOR 1942 16961 24270; G2 XOR 24522 24395 11379; G2 XOR 16960 24395 11378;
  G2 AND 11379 11378 11377; G2 XOR 11377 24395 24396; G2 XOR 24459 24396 1941; G2 XOR 1941 16962 24271;
  G2 XOR 24523 24396 11376; G2 XOR 16961 24396 11375; G2 AND 11376 11375 11374; G2 XOR 11374 24396 24397;
  G2 XOR 24460 24397 1940; G2 XOR 1940 16963 24272; G2 XOR 24524 24397 11373; G2 XOR 16962 24397 11372;
  G2 AND 11373 11372 11371; G2 XOR 11371 24397 24398; G2 XOR 24461 24398 1939; G2 XOR 1939 16964 24273;
  G2 XOR 24525 24398 11370; G2 XOR 16963 24398 11369; G2 AND 11370 11369 11368; G2 XOR 11368 24398 24399;
  G2 XOR 24462 24399 1938; G2 XOR 1938 16965 24274; G2 XOR 24526 24399 11367; G2 XOR 16964 24399 11366;
  G2 AND 11367 11366 11365; G2 XOR 11365 24399 24400; G2 XOR 24463 24400 1937; G2 XOR 1937 16966 24275;
  G2 XOR 24527 24400 11364; G2 XOR 16965 24400 11363; G2 AND 11364 11363 11362; G2 XOR 11362 24400 24401;
  G2 XOR 24464 24401 1936; G2 XOR 1936 16967 24276; G2 XOR 24528 24401 11361; G2 XOR 16966 24401 11360;
  G2 AND 11361 11360 11359; G2 XOR 11359 24401 24402; G2 XOR 24465 24402 1935; G2 XOR 1935 16968 24277;
  G2 XOR 24529 24402 11358; G2 XOR 16967 24402 11357; G2 AND 11358 11357 11356; G2 XOR 11356 24402 24403;
  G2 XOR 24466 24403 1934; G2 XOR 1934 16969 24278; G2 XOR 24530 24403 11355; G2 XOR 16968 24403 11354;
  G2 AND 11355 11354 11353; G2 XOR 11353 24403 24404; G2 XOR 24467 24404 1933; G2 XOR 1933 16970 24279;
  G2 XOR 24531 24404 11352; G2 XOR 16969 24404 11351; G2 AND 11352 11351 11350; G2 XOR 11350 24404 24405;
  G2 XOR 24468 24405 1932; G2 XOR 1932 16971 24280; G2 XOR 24532 24405 11349; G2 XOR 16970 24405 11348;
  G2 AND 11349 11348 11347; G2 XOR 11347 24405 24406; G2 XOR 24469 24406 1931; G2 XOR 1931 16972 24281;
  G2 XOR 24533 24406 11346; G2 XOR 16971 24406 11345; G2 AND 11346 11345 11344; G2 XOR 11344 24406 24407;
  G2 XOR 24470 24407 1930; G2 XOR 1930 16973 24282; G2 XOR 24534 24407 11343; G2 XOR 16972 24407 11342;
  G2 AND 11343 11342 11341; G2 XOR 11341 24407 24408; G2 XOR 24471 24408 1929; G2 XOR 1929 16974 24283;
  G2 XOR 24535 24408 11340; G2 XOR 16973 24408 11339; G2 AND 11340 11339 11338; G2 XOR 11338 24408 24409;
  G2 XOR 24472 24409 1928; G2 XOR 1928 16975 24284; G2 XOR 24536 24409 11337; G2 XOR 16974 24409 11336;
  G2 AND 11337 11336 11335; G2 XOR 11335 24409 24410; G2 XOR 24473 24410 1927; G2 XOR 1927 16976 24285;
  G2 XOR 24537 24410 11334; G2 XOR 16975 24410 11333; G2 AND 11334 11333 11332; G2 XOR 11332 24410 24411;
  G2 XOR 24474 24411 1926; G2 XOR 1926 16977 24286; G2 XOR 24538 24411 11331; G2 XOR 16976 24411 11330;
  G2 AND 11331 11330 11329; G2 XOR 11329 24411 24412; G2 XOR 24475 24412 1925; G2 XOR 1925 16978 24287;
  G2 XOR 24539 24412 11328; G2 XOR 16977 24412 11327; G2 AND 11328 11327 11326; G2 XOR 11326 24412 24413;
  G2 XOR 24476 24413 1924; G2 XOR 1924 16979 24288; G2 XOR 24540 24413 11325; G2 XOR 16978 24413 11324;
  G2 AND 11325 11324 11323; G2 XOR 11323 24413 24414; G2 XOR 24477 24414 1923; G2 XOR 1923 16980 24289;
  G2 XOR 24541 24414 11322; G2 XOR 16979 24414 11321; G2 AND 11322 11321 11320; G2 XOR 11320 24414 24415;
  G2 XOR 24478 24415 1922; G2 XOR 1922 16981 24290; G2 XOR 24542 24415 11319; G2 XOR 16980 24415 11318;
  G2 AND 11319 11318 11317; G2 XOR 11317 24415 24416; G2 XOR 24479 24416 1921; G2 XOR 1921 16982 24291;
  G2 XOR 24543 24416 11316; G2 XOR 16981 24416 11315; G2 AND 11316 11315 11314; G2 XOR 11314 24416 24417;
  G2 XOR 24480 24417 1920; G2 XOR 1920 16983 24292; G2 XOR 24544 24417 11313; G2 XOR 16982 24417 11312;
  G2 AND 11313 11312 11311; G2 XOR 11311 24417 24418; G2 XOR 24481 24418 1919; G2 XOR 1919 16984 24293;
  G2 XOR 24545 24418 11310; G2 XOR 16983 24418 11309; G2 AND 11310 11309 11308; G2 XOR 11308 24418 24419;
  G2 XOR 24482 24419 1918; G2 XOR 1918 16985 24294; G2 XOR 24546 24419 11307; G2 XOR 16984 24419 11306;
  G2 AND 11307 11306 11305; G2 XOR 11305 24419 24420; G2 XOR 24483 24420 1917; G2 XOR 1917 16986 24295;
  G2 XOR 24547 24420 11304; G2 XOR 16985 24420 11303; G2 AND 11304 11303 11302; G2 XOR 11302 24420 24421;
  G2 XOR 24484 24421 1916; G2 XOR 1916 16987 24296; G2 XOR 24548 24421 11301; G2 XOR 16986 24421 11300;
  G2 AND 11301 11300 11299; G2 XOR 11299 24421 24422; G2 XOR 24485 24422 1915; G2 XOR 1915 16988 24297;
  G2 XOR 24549 24422 11298; G2 XOR 16987 24422 11297; G2 AND 11298 11297 11296; G2 XOR 11296 24422 24423;
  G2 XOR 24486 24423 1914; G2 XOR 1914 16989 24298; G2 XOR 24550 24423 11295; G2 XOR 16988 24423 11294;
  G2 AND 11295 11294 11293; G2 XOR 11293 24423 24424; G2 XOR 24487 24424 1913; G2 XOR 1913 16990 24299;
  G2 XOR 24551 24424 11292; G2 XOR 16989 24424 11291; G2 AND 11292 11291 11290; G2 XOR 11290 24424 24425;
  G2 XOR 24488 24425 1912; G2 XOR 1912 16991 24300; G2 XOR 24552 24425 11289; G2 XOR 16990 24425 11288;
  G2 AND 11289 11288 11287; G2 XOR 11287 24425 24426; G2 XOR 24489 24426 1911; G2 XOR 1911 16992 24301;
  G2 XOR 24553 24426 11286; G2 XOR 16991 24426 11285; G2 AND 11286 11285 11284; G2 XOR 11284 24426 24427;
  G2 XOR 24490 24427 1910; G2 XOR 1910 16993 24302; G2 XOR 24554 24427 11283; G2 XOR 16992 24427 11282;
  G2 AND 11283 11282 11281; G2 XOR 11281 24427 24428; G2 XOR 24491 24428 1909; G2 XOR 1909 16994 24303;
  G2 XOR 24555 24428 11280; G2 XOR 16993 24428 11279; G2 AND 11280 11279 11278; G2 XOR 11278 24428 24429;
  G2 XOR 24492 24429 1908; G2 XOR 1908 16995 24304; G2 XOR 24556 24429 11277; G2 XOR 16994 24429 11276;
  G2 AND 11277 11276 11275; G2 XOR 11275 24429 24430; G2 XOR 24493 24430 1907; G2 XOR 1907 16996 24305;
  G2 XOR 24557 24430 11274; G2 XOR 16995 24430 11273; G2 AND 11274 11273 11272; G2 XOR 11272 24430 24431;
  G2 XOR 24494 24431 1906; G2 XOR 1906 16997 24306; G2 XOR 24558 24431 11271; G2 XOR 16996 24431 11270;
  G2 AND 11271 11270 11269; G2 XOR 11269 24431 24432; G2 XOR 24495 24432 1905; G2 XOR 1905 16998 24307;
  G2 XOR 24559 24432 11268; G2 XOR 16997 24432 11267; G2 AND 11268 11267 11266; G2 XOR 11266 24432 24433;
  G2 XOR 24496 24433 1904; G2 XOR 1904 16999 24308; G2 XOR 24560 24433 11265; G2 XOR 16998 24433 11264;
  G2 AND 11265 11264 11263; G2 XOR 11263 24433 24434; G2 XOR 24497 24434 1903; G2 XOR 1903 17000 24309;
  G2 XOR 24561 24434 11262; G2 XOR 16999 24434 11261; G2 AND 11262 11261 11260; G2 XOR 11260 24434 24435;
  G2 XOR 24498 24435 1902; G2 XOR 1902 17001 24310; G2 XOR 24562 24435 11259; G2 XOR 17000 24435 11258;
  G2 AND 11259 11258 11257; G2 XOR 11257 24435 24436; G2 XOR 24499 24436 1901; G2 XOR 1901 17002 24311;
  G2 XOR 24563 24436 11256; G2 XOR 17001 24436 11255; G2 AND 11256 11255 11254; G2 XOR 11254 24436 24437;
  G2 XOR 24500 24437 1900; G2 XOR 1900 17003 24312; G2 XOR 24564 24437 11253; G2 XOR 17002 24437 11252;
  G2 AND 11253 11252 11251; G2 XOR 11251 24437 24438; G2 XOR 24501 24438 1899; G2 XOR 1899 17004 24313;
  G2 XOR 24565 24438 11250; G2 XOR 17003 24438 11249; G2 AND 11250 11249 11248; G2 XOR 11248 24438 24439;
  G2 XOR 24502 24439 1898; G2 XOR 1898 17005 24314; G2 XOR 24566 24439 11247; G2 XOR 17004 24439 11246;
  G2 AND 11247 11246 11245; G2 XOR 11245 24439 24440; G2 XOR 24503 24440 1897; G2 XOR 1897 17006 24315;
  G2 XOR 24567 24440 11244; G2 XOR 17005 24440 11243; G2 AND 11244 11243 11242; G2 XOR 11242 24440 24441;
  G2 XOR 24504 24441 1896; G2 XOR 1896 17007 24316; G2 XOR 24568 24441 11241; G2 XOR 17006 24441 11240;
  G2 AND 11241 11240 11239; G2 XOR 11239 24441 24442; G2 XOR 24505 24442 1895; G2 XOR 1895 17008 24317;
  G2 XOR 24569 24442 11238; G2 XOR 17007 24442 11237; G2 AND 11238 11237 11236; G2 XOR 11236 24442 24443;
  G2 XOR 24506 24443 1894; G2 XOR 1894 17009 24318; G2 XOR 24570 24443 11235; G2 XOR 17008 24443 11234;
  G2 AND 11235 11234 11233; G2 XOR 11233 24443 24444; G2 XOR 24507 24444 157; G2 AND 16666 4535 17550;
  G1 INV 157 16665; G2 XOR 16854 16665 24319; G2 XOR 1956 16665 24320; G2 XOR 1955 16665 24321;
  G2 XOR 1954 16665 24322; G2 XOR 1953 16665 24323; G2 XOR 1952 16665 24324; G2 XOR 1951 16665 24325;
  G2 XOR 1950 16665 24326; G2 XOR 1949 16665 24327; G2 XOR 1948 16665 24328; G2 XOR 1947 16665 24329;
  G2 XOR 1946 16665 24330; G2 XOR 1945 16665 24331; G2 XOR 1944 16665 24332; G2 XOR 1943 16665 24333;
  G2 XOR 1942 16665 24334; G2 XOR 1941 16665 24335; G2 XOR 1940 16665 24336; G2 XOR 1939 16665 24337;
  G2 XOR 1938 16665 24338; G2 XOR 1937 16665 24339; G2 XOR 1936 16665 24340; G2 XOR 1935 16665 24341;
  G2 XOR 1934 16665 24342; G2 XOR 1933 16665 24343; G2 XOR 1932 16665 24344; G2 XOR 1931 16665 24345;
  G2 XOR 1930 16665 24346; G2 XOR 1929 16665 24347; G2 XOR 1928 16665 24348; G2 XOR 1927 16665 24349;
  G2 XOR 1926 16665 24350; G2 XOR 1925 16665 24351; G2 XOR 1924 16665 24352; G2 XOR 1923 16665 24353;
  G2 XOR 1922 16665 24354; G2 XOR 1921 16665 24355; G2 XOR 1920 16665 24356; G2 XOR 1919 16665 24357;
  G2 XOR 1918 16665 24358; G2 XOR 1917 16665 24359; G2 XOR 1916 16665 24360; G2 XOR 1915 16665 24361;
  G2 XOR 1914 16665 24362; G2 XOR 1913 16665 24363; G2 XOR 1912 16665 24364; G2 XOR 1911 16665 24365;
  G2 XOR 1910 16665 24366; G2 XOR 1909 16665 24367; G2 XOR 1908 16665 24368; G2 XOR 1907 16665 24369;
  G2 XOR 1906 16665 24370; G2 XOR 1905 16665 24371; G2 XOR 1904 16665 24372; G2 XOR 1903 16665 24373;
  G2 XOR 1902 16665 24374; G2 XOR 1901 16665 24375; G2 XOR 1900 16665 24376; G2 XOR 1899 16665 24377;
  G2 XOR 1898 16665 24378; G2 XOR 1897 16665 24379; G2 XOR 1896 16665 24380; G2 XOR 1895 16665 24381;
  G2 AND 24319 16946 24193; G2 XOR 24256 24193 2018; G2 XOR 2018 16948 24068; G2 XOR 24320 24193 11232;
  G2 XOR 16947 24193 11231; G2 AND 11232 11231 11230; G2 XOR 11230 24193 24194; G2 XOR 24257 24194 2017;
  G2 XOR 2017 16949 24069; G2 XOR 24321 24194 11229; G2 XOR 16948 24194 11228; G2 AND 11229 11228 11227;
  G2 XOR 11227 24194 24195; G2 XOR 24258 24195 2016; G2 XOR 2016 16950 24070; G2 XOR 24322 24195 11226;
  G2 XOR 16949 24195 11225; G2 AND 11226 11225 11224; G2 XOR 11224 24195 24196; G2 XOR 24259 24196 2015;
  G2 XOR 2015 16951 24071; G2 XOR 24323 24196 11223; G2 XOR 16950 24196 11222; G2 AND 11223 11222 11221;
  G2 XOR 11221 24196 24197; G2 XOR 24260 24197 2014; G2 XOR 2014 16952 24072; G2 XOR 24324 24197 11220;
  G2 XOR 16951 24197 11219; G2 AND 11220 11219 11218; G2 XOR 11218 24197 24198; G2 XOR 24261 24198 2013;
  G2 XOR 2013 16953 24073; G2 XOR 24325 24198 11217; G2 XOR 16952 24198 11216; G2 AND 11217 11216 11215;
  G2 XOR 11215 24198 24199; G2 XOR 24262 24199 2012; G2 XOR 2012 16954 24074; G2 XOR 24326 24199 11214;
  G2 XOR 16953 24199 11213; G2 AND 11214 11213 11212; G2 XOR 11212 24199 24200; G2 XOR 24263 24200 2011;
  G2 XOR 2011 16955 24075; G2 XOR 24327 24200 11211; G2 XOR 16954 24200 11210; G2 AND 11211 11210 11209;
  G2 XOR 11209 24200 24201; G2 XOR 24264 24201 2010; G2 XOR 2010 16956 24076; G2 XOR 24328 24201 11208;
  G2 XOR 16955 24201 11207; G2 AND 11208 11207 11206; G2 XOR 11206 24201 24202; G2 XOR 24265 24202 2009;
  G2 XOR 2009 16957 24077; G2 XOR 24329 24202 11205; G2 XOR 16956 24202 11204; G2 AND 11205 11204 11203;
  G2 XOR 11203 24202 24203; G2 XOR 24266 24203 2008; G2 XOR 2008 16958 24078; G2 XOR 24330 24203 11202;
  G2 XOR 16957 24203 11201; G2 AND 11202 11201 11200; G2 XOR 11200 24203 24204; G2 XOR 24267 24204 2007;
  G2 XOR 2007 16959 24079; G2 XOR 24331 24204 11199; G2 XOR 16958 24204 11198; G2 AND 11199 11198 11197;
  G2 XOR 11197 24204 24205; G2 XOR 24268 24205 2006; G2 XOR 2006 16960 24080; G2 XOR 24332 24205 11196;
  G2 XOR 16959 24205 11195; G2 AND 11196 11195 11194; G2 XOR 11194 24205 24206; G2 XOR 24269 24206 2005;
  G2 XOR 2005 16961 24081; G2 XOR 24333 24206 11193; G2 XOR 16960 24206 11192; G2 AND 11193 11192 11191;
  G2 XOR 11191 24206 24207; G2 XOR 24270 24207 2004; G2 XOR 2004 16962 24082; G2 XOR 24334 24207 11190;
  G2 XOR 16961 24207 11189; G2 AND 11190 11189 11188; G2 XOR 11188 24207 24208; G2 XOR 24271 24208 2003;
  G2 XOR 2003 16963 24083; G2 XOR 24335 24208 11187; G2 XOR 16962 24208 11186; G2 AND 11187 11186 11185;
  G2 XOR 11185 24208 24209; G2 XOR 24272 24209 2002; G2 XOR 2002 16964 24084; G2 XOR 24336 24209 11184;
  G2 XOR 16963 24209 11183; G2 AND 11184 11183 11182; G2 XOR 11182 24209 24210; G2 XOR 24273 24210 2001;
  G2 XOR 2001 16965 24085; G2 XOR 24337 24210 11181; G2 XOR 16964 24210 11180; G2 AND 11181 11180 11179;
  G2 XOR 11179 24210 24211; G2 XOR 24274 24211 2000; G2 XOR 2000 16966 24086; G2 XOR 24338 24211 11178;
  G2 XOR 16965 24211 11177; G2 AND 11178 11177 11176; G2 XOR 11176 24211 24212; G2 XOR 24275 24212 1999;
  G2 XOR 1999 16967 24087; G2 XOR 24339 24212 11175; G2 XOR 16966 24212 11174; G2 AND 11175 11174 11173;
  G2 XOR 11173 24212 24213; G2 XOR 24276 24213 1998; G2 XOR 1998 16968 24088; G2 XOR 24340 24213 11172;
  G2 XOR 16967 24213 11171; G2 AND 11172 11171 11170; G2 XOR 11170 24213 24214; G2 XOR 24277 24214 1997;
  G2 XOR 1997 16969 24089; G2 XOR 24341 24214 11169; G2 XOR 16968 24214 11168; G2 AND 11169 11168 11167;
  G2 XOR 11167 24214 24215; G2 XOR 24278 24215 1996; G2 XOR 1996 16970 24090; G2 XOR 24342 24215 11166;
  G2 XOR 16969 24215 11165; G2 AND 11166 11165 11164; G2 XOR 11164 24215 24216; G2 XOR 24279 24216 1995;
  G2 XOR 1995 16971 24091; G2 XOR 24343 24216 11163; G2 XOR 16970 24216 11162; G2 AND 11163 11162 11161;
  G2 XOR 11161 24216 24217; G2 XOR 24280 24217 1994; G2 XOR 1994 16972 24092; G2 XOR 24344 24217 11160;
  G2 XOR 16971 24217 11159; G2 AND 11160 11159 11158; G2 XOR 11158 24217 24218; G2 XOR 24281 24218 1993;
  G2 XOR 1993 16973 24093; G2 XOR 24345 24218 11157; G2 XOR 16972 24218 11156; G2 AND 11157 11156 11155;
  G2 XOR 11155 24218 24219; G2 XOR 24282 24219 1992; G2 XOR 1992 16974 24094; G2 XOR 24346 24219 11154;
  G2 XOR 16973 24219 11153; G2 AND 11154 11153 11152; G2 XOR 11152 24219 24220; G2 XOR 24283 24220 1991;
  G2 XOR 1991 16975 24095; G2 XOR 24347 24220 11151; G2 XOR 16974 24220 11150; G2 AND 11151 11150 11149;
  G2 XOR 11149 24220 24221; G2 XOR 24284 24221 1990; G2 XOR 1990 16976 24096; G2 XOR 24348 24221 11148;
  G2 XOR 16975 24221 11147; G2 AND 11148 11147 11146; G2 XOR 11146 24221 24222; G2 XOR 24285 24222 1989;
  G2 XOR 1989 16977 24097; G2 XOR 24349 24222 11145; G2 XOR 16976 24222 11144; G2 AND 11145 11144 11143;
  G2 XOR 11143 24222 24223; G2 XOR 24286 24223 1988; G2 XOR 1988 16978 24098; G2 XOR 24350 24223 11142;
  G2 XOR 16977 24223 11141; G2 AND 11142 11141 11140; G2 XOR 11140 24223 24224; G2 XOR 24287 24224 1987;
  G2 XOR 1987 16979 24099; G2 XOR 24351 24224 11139; G2 XOR 16978 24224 11138; G2 AND 11139 11138 11137;
  G2 XOR 11137 24224 24225; G2 XOR 24288 24225 1986; G2 XOR 1986 16980 24100; G2 XOR 24352 24225 11136;
  G2 XOR 16979 24225 11135; G2 AND 11136 11135 11134; G2 XOR 11134 24225 24226; G2 XOR 24289 24226 1985;
  G2 XOR 1985 16981 24101; G2 XOR 24353 24226 11133; G2 XOR 16980 24226 11132; G2 AND 11133 11132 11131;
  G2 XOR 11131 24226 24227; G2 XOR 24290 24227 1984; G2 XOR 1984 16982 24102; G2 XOR 24354 24227 11130;
  G2 XOR 16981 24227 11129; G2 AND 11130 11129 11128; G2 XOR 11128 24227 24228; G2 XOR 24291 24228 1983;
  G2 XOR 1983 16983 24103; G2 XOR 24355 24228 11127; G2 XOR 16982 24228 11126; G2 AND 11127 11126 11125;
  G2 XOR 11125 24228 24229; G2 XOR 24292 24229 1982; G2 XOR 1982 16984 24104; G2 XOR 24356 24229 11124;
  G2 XOR 16983 24229 11123; G2 AND 11124 11123 11122; G2 XOR 11122 24229 24230; G2 XOR 24293 24230 1981;
  G2 XOR 1981 16985 24105; G2 XOR 24357 24230 11121; G2 XOR 16984 24230 11120; G2 AND 11121 11120 11119;
  G2 XOR 11119 24230 24231; G2 XOR 24294 24231 1980; G2 XOR 1980 16986 24106; G2 XOR 24358 24231 11118;
  G2 XOR 16985 24231 11117; G2 AND 11118 11117 11116; G2 XOR 11116 24231 24232; G2 XOR 24295 24232 1979;
  G2 XOR 1979 16987 24107; G2 XOR 24359 24232 11115; G2 XOR 16986 24232 11114; G2 AND 11115 11114 11113;
  G2 XOR 11113 24232 24233; G2 XOR 24296 24233 1978; G2 XOR 1978 16988 24108; G2 XOR 24360 24233 11112;
  G2 XOR 16987 24233 11111; G2 AND 11112 11111 11110; G2 XOR 11110 24233 24234; G2 XOR 24297 24234 1977;
  G2 XOR 1977 16989 24109; G2 XOR 24361 24234 11109; G2 XOR 16988 24234 11108; G2 AND 11109 11108 11107;
  G2 XOR 11107 24234 24235; G2 XOR 24298 24235 1976; G2 XOR 1976 16990 24110; G2 XOR 24362 24235 11106;
  G2 XOR 16989 24235 11105; G2 AND 11106 11105 11104; G2 XOR 11104 24235 24236; G2 XOR 24299 24236 1975;
  G2 XOR 1975 16991 24111; G2 XOR 24363 24236 11103; G2 XOR 16990 24236 11102; G2 AND 11103 11102 11101;
  G2 XOR 11101 24236 24237; G2 XOR 24300 24237 1974; G2 XOR 1974 16992 24112; G2 XOR 24364 24237 11100;
  G2 XOR 16991 24237 11099; G2 AND 11100 11099 11098; G2 XOR 11098 24237 24238; G2 XOR 24301 24238 1973;
  G2 XOR 1973 16993 24113; G2 XOR 24365 24238 11097; G2 XOR 16992 24238 11096; G2 AND 11097 11096 11095;
  G2 XOR 11095 24238 24239; G2 XOR 24302 24239 1972; G2 XOR 1972 16994 24114; G2 XOR 24366 24239 11094;
  G2 XOR 16993 24239 11093; G2 AND 11094 11093 11092; G2 XOR 11092 24239 24240; G2 XOR 24303 24240 1971;
  G2 XOR 1971 16995 24115; G2 XOR 24367 24240 11091; G2 XOR 16994 24240 11090; G2 AND 11091 11090 11089;
  G2 XOR 11089 24240 24241; G2 XOR 24304 24241 1970; G2 XOR 1970 16996 24116; G2 XOR 24368 24241 11088;
  G2 XOR 16995 24241 11087; G2 AND 11088 11087 11086; G2 XOR 11086 24241 24242; G2 XOR 24305 24242 1969;
  G2 XOR 1969 16997 24117; G2 XOR 24369 24242 11085; G2 XOR 16996 24242 11084; G2 AND 11085 11084 11083;
  G2 XOR 11083 24242 24243; G2 XOR 24306 24243 1968; G2 XOR 1968 16998 24118; G2 XOR 24370 24243 11082;
  G2 XOR 16997 24243 11081; G2 AND 11082 11081 11080; G2 XOR 11080 24243 24244; G2 XOR 24307 24244 1967;
  G2 XOR 1967 16999 24119; G2 XOR 24371 24244 11079; G2 XOR 16998 24244 11078; G2 AND 11079 11078 11077;
  G2 XOR 11077 24244 24245; G2 XOR 24308 24245 1966; G2 XOR 1966 17000 24120; G2 XOR 24372 24245 11076;
  G2 XOR 16999 24245 11075; G2 AND 11076 11075 11074; G2 XOR 11074 24245 24246; G2 XOR 24309 24246 1965;
  G2 XOR 1965 17001 24121; G2 XOR 24373 24246 11073; G2 XOR 17000 24246 11072; G2 AND 11073 11072 11071;
  G2 XOR 11071 24246 24247; G2 XOR 24310 24247 1964; G2 XOR 1964 17002 24122; G2 XOR 24374 24247 11070;
  G2 XOR 17001 24247 11069; G2 AND 11070 11069 11068; G2 XOR 11068 24247 24248; G2 XOR 24311 24248 1963;
  G2 XOR 1963 17003 24123; G2 XOR 24375 24248 11067; G2 XOR 17002 24248 11066; G2 AND 11067 11066 11065;
  G2 XOR 11065 24248 24249; G2 XOR 24312 24249 1962; G2 XOR 1962 17004 24124; G2 XOR 24376 24249 11064;
  G2 XOR 17003 24249 11063; G2 AND 11064 11063 11062; G2 XOR 11062 24249 24250; G2 XOR 24313 24250 1961;
  G2 XOR 1961 17005 24125; G2 XOR 24377 24250 11061; G2 XOR 17004 24250 11060; G2 AND 11061 11060 11059;
  G2 XOR 11059 24250 24251; G2 XOR 24314 24251 1960; G2 XOR 1960 17006 24126; G2 XOR 24378 24251 11058;
  G2 XOR 17005 24251 11057; G2 AND 11058 11057 11056; G2 XOR 11056 24251 24252; G2 XOR 24315 24252 1959;
  G2 XOR 1959 17007 24127; G2 XOR 24379 24252 11055; G2 XOR 17006 24252 11054; G2 AND 11055 11054 11053;
  G2 XOR 11053 24252 24253; G2 XOR 24316 24253 1958; G2 XOR 1958 17008 24128; G2 XOR 24380 24253 11052;
  G2 XOR 17007 24253 11051; G2 AND 11052 11051 11050; G2 XOR 11050 24253 24254; G2 XOR 24317 24254 1957;
  G2 XOR 1957 17009 24129; G2 XOR 24381 24254 11049; G2 XOR 17008 24254 11048; G2 AND 11049 11048 11047;
  G2 XOR 11047 24254 24255; G2 XOR 24318 24255 158; G1 INV 158 16664; G2 XOR 16853 16664 24130;
  G2 XOR 2019 16664 24131; G2 XOR 2018 16664 24132; G2 XOR 2017 16664 24133; G2 XOR 2016 16664 24134;
  G2 XOR 2015 16664 24135; G2 XOR 2014 16664 24136; G2 XOR 2013 16664 24137; G2 XOR 2012 16664 24138;
  G2 XOR 2011 16664 24139; G2 XOR 2010 16664 24140; G2 XOR 2009 16664 24141; G2 XOR 2008 16664 24142;
  G2 XOR 2007 16664 24143; G2 XOR 2006 16664 24144; G2 XOR 2005 16664 24145; G2 XOR 2004 16664 24146;
  G2 XOR 2003 16664 24147; G2 XOR 2002 16664 24148; G2 XOR 2001 16664 24149; G2 XOR 2000 16664 24150;
  G2 XOR 1999 16664 24151; G2 XOR 1998 16664 24152; G2 XOR 1997 16664 24153; G2 XOR 1996 16664 24154;
  G2 XOR 1995 16664 24155; G2 XOR 1994 16664 24156; G2 XOR 1993 16664 24157; G2 XOR 1992 16664 24158;
  G2 XOR 1991 16664 24159; G2 XOR 1990 16664 24160; G2 XOR 1989 16664 24161; G2 XOR 1988 16664 24162;
  G2 XOR 1987 16664 24163; G2 XOR 1986 16664 24164; G2 XOR 1985 16664 24165; G2 XOR 1984 16664 24166;
  G2 XOR 1983 16664 24167; G2 XOR 1982 16664 24168; G2 XOR 1981 16664 24169; G2 XOR 1980 16664 24170;
  G2 XOR 1979 16664 24171; G2 XOR 1978 16664 24172; G2 XOR 1977 16664 24173; G2 XOR 1976 16664 24174;
  G2 XOR 1975 16664 24175; G2 XOR 1974 16664 24176; G2 XOR 1973 16664 24177; G2 XOR 1972 16664 24178;
  G2 XOR 1971 16664 24179; G2 XOR 1970 16664 24180; G2 XOR 1969 16664 24181; G2 XOR 1968 16664 24182;
  G2 XOR 1967 16664 24183; G2 XOR 1966 16664 24184; G2 XOR 1965 16664 24185; G2 XOR 1964 16664 24186;
  G2 XOR 1963 16664 24187; G2 XOR 1962 16664 24188; G2 XOR 1961 16664 24189; G2 XOR 1960 16664 24190;
  G2 XOR 1959 16664 24191; G2 XOR 1958 16664 24192; G2 AND 24130 16946 24004; G2 XOR 24067 24004 2081;
  G2 XOR 2081 16948 23879; G2 XOR 24131 24004 11046; G2 XOR 16947 24004 11045; G2 AND 11046 11045 11044;
  G2 XOR 11044 24004 24005; G2 XOR 24068 24005 2080; G2 XOR 2080 16949 23880; G2 XOR 24132 24005 11043;
  G2 XOR 16948 24005 11042; G2 AND 11043 11042 11041; G2 XOR 11041 24005 24006; G2 XOR 24069 24006 2079;
  G2 XOR 2079 16950 23881; G2 XOR 24133 24006 11040; G2 XOR 16949 24006 11039; G2 AND 11040 11039 11038;
  G2 XOR 11038 24006 24007; G2 XOR 24070 24007 2078; G2 XOR 2078 16951 23882; G2 XOR 24134 24007 11037;
  G2 XOR 16950 24007 11036; G2 AND 11037 11036 11035; G2 XOR 11035 24007 24008; G2 XOR 24071 24008 2077;
  G2 XOR 2077 16952 23883; G2 XOR 24135 24008 11034; G2 XOR 16951 24008 11033; G2 AND 11034 11033 11032;
  G2 XOR 11032 24008 24009; G2 XOR 24072 24009 2076; G2 XOR 2076 16953 23884; G2 XOR 24136 24009 11031;
  G2 XOR 16952 24009 11030; G2 AND 11031 11030 11029; G2 XOR 11029 24009 24010; G2 XOR 24073 24010 2075;
  G2 XOR 2075 16954 23885; G2 XOR 24137 24010 11028; G2 XOR 16953 24010 11027; G2 AND 11028 11027 11026;
  G2 XOR 11026 24010 24011; G2 XOR 24074 24011 2074; G2 XOR 2074 16955 23886; G2 XOR 24138 24011 11025;
  G2 XOR 16954 24011 11024; G2 AND 11025 11024 11023; G2 XOR 11023 24011 24012; G2 XOR 24075 24012 2073;
  G2 XOR 2073 16956 23887; G2 XOR 24139 24012 11022; G2 XOR 16955 24012 11021; G2 AND 11022 11021 11020;
  G2 XOR 11020 24012 24013; G2 XOR 24076 24013 2072; G2 XOR 2072 16957 23888; G2 XOR 24140 24013 11019;
  G2 XOR 16956 24013 11018; G2 AND 11019 11018 11017; G2 XOR 11017 24013 24014; G2 XOR 24077 24014 2071;
  G2 XOR 2071 16958 23889; G2 XOR 24141 24014 11016; G2 XOR 16957 24014 11015; G2 AND 11016 11015 11014;
  G2 XOR 11014 24014 24015; G2 XOR 24078 24015 2070; G2 XOR 2070 16959 23890; G2 XOR 24142 24015 11013;
  G2 XOR 16958 24015 11012; G2 AND 11013 11012 11011; G2 XOR 11011 24015 24016; G2 XOR 24079 24016 2069;
  G2 XOR 2069 16960 23891; G2 XOR 24143 24016 11010; G2 XOR 16959 24016 11009; G2 AND 11010 11009 11008;
  G2 XOR 11008 24016 24017; G2 XOR 24080 24017 2068; G2 XOR 2068 16961 23892; G2 XOR 24144 24017 11007;
  G2 XOR 16960 24017 11006; G2 AND 11007 11006 11005; G2 XOR 11005 24017 24018; G2 XOR 24081 24018 2067;
  G2 XOR 2067 16962 23893; G2 XOR 24145 24018 11004; G2 XOR 16961 24018 11003; G2 AND 11004 11003 11002;
  G2 XOR 11002 24018 24019; G2 XOR 24082 24019 2066; G2 XOR 2066 16963 23894; G2 XOR 24146 24019 11001;
  G2 XOR 16962 24019 11000; G2 AND 11001 11000 10999; G2 XOR 10999 24019 24020; G2 XOR 24083 24020 2065;
  G2 XOR 2065 16964 23895; G2 XOR 24147 24020 10998; G2 XOR 16963 24020 10997; G2 AND 10998 10997 10996;
  G2 XOR 10996 24020 24021; G2 XOR 24084 24021 2064; G2 XOR 2064 16965 23896; G2 XOR 24148 24021 10995;
  G2 XOR 16964 24021 10994; G2 AND 10995 10994 10993; G2 XOR 10993 24021 24022; G2 XOR 24085 24022 2063;
  G2 XOR 2063 16966 23897; G2 XOR 24149 24022 10992; G2 XOR 16965 24022 10991; G2 AND 10992 10991 10990;
  G2 XOR 10990 24022 24023; G2 XOR 24086 24023 2062; G2 XOR 2062 16967 23898; G2 XOR 24150 24023 10989;
  G2 XOR 16966 24023 10988; G2 AND 10989 10988 10987; G2 XOR 10987 24023 24024; G2 XOR 24087 24024 2061;
  G2 XOR 2061 16968 23899; G2 XOR 24151 24024 10986; G2 XOR 16967 24024 10985; G2 AND 10986 10985 10984;
  G2 XOR 10984 24024 24025; G2 XOR 24088 24025 2060; G2 XOR 2060 16969 23900; G2 XOR 24152 24025 10983;
  G2 XOR 16968 24025 10982; G2 AND 10983 10982 10981; G2 XOR 10981 24025 24026; G2 XOR 24089 24026 2059;
  G2 XOR 2059 16970 23901; G2 XOR 24153 24026 10980; G2 XOR 16969 24026 10979; G2 AND 10980 10979 10978;
  G2 XOR 10978 24026 24027; G2 XOR 24090 24027 2058; G2 XOR 2058 16971 23902; G2 XOR 24154 24027 10977;
  G2 XOR 16970 24027 10976; G2 AND 10977 10976 10975; G2 XOR 10975 24027 24028; G2 XOR 24091 24028 2057;
  G2 XOR 2057 16972 23903; G2 XOR 24155 24028 10974; G2 XOR 16971 24028 10973; G2 AND 10974 10973 10972;
  G2 XOR 10972 24028 24029; G2 XOR 24092 24029 2056; G2 XOR 2056 16973 23904; G2 XOR 24156 24029 10971;
  G2 XOR 16972 24029 10970; G2 AND 10971 10970 10969; G2 XOR 10969 24029 24030; G2 XOR 24093 24030 2055;
  G2 XOR 2055 16974 23905; G2 XOR 24157 24030 10968; G2 XOR 16973 24030 10967; G2 AND 10968 10967 10966;
  G2 XOR 10966 24030 24031; G2 XOR 24094 24031 2054; G2 XOR 2054 16975 23906; G2 XOR 24158 24031 10965;
  G2 XOR 16974 24031 10964; G2 AND 10965 10964 10963; G2 XOR 10963 24031 24032; G2 XOR 24095 24032 2053;
  G2 XOR 2053 16976 23907; G2 XOR 24159 24032 10962; G2 XOR 16975 24032 10961; G2 AND 10962 10961 10960;
  G2 XOR 10960 24032 24033; G2 XOR 24096 24033 2052; G2 XOR 2052 16977 23908; G2 XOR 24160 24033 10959;
  G2 XOR 16976 24033 10958; G2 AND 10959 10958 10957; G2 XOR 10957 24033 24034; G2 XOR 24097 24034 2051;
  G2 XOR 2051 16978 23909; G2 XOR 24161 24034 10956; G2 XOR 16977 24034 10955; G2 AND 10956 10955 10954;
  G2 XOR 10954 24034 24035; G2 XOR 24098 24035 2050; G2 XOR 2050 16979 23910; G2 XOR 24162 24035 10953;
  G2 XOR 16978 24035 10952; G2 AND 10953 10952 10951; G2 XOR 10951 24035 24036; G2 XOR 24099 24036 2049;
  G2 XOR 2049 16980 23911; G2 XOR 24163 24036 10950; G2 XOR 16979 24036 10949; G2 AND 10950 10949 10948;
  G2 XOR 10948 24036 24037; G2 XOR 24100 24037 2048; G2 XOR 2048 16981 23912; G2 XOR 24164 24037 10947;
  G2 XOR 16980 24037 10946; G2 AND 10947 10946 10945; G2 XOR 10945 24037 24038; G2 XOR 24101 24038 2047;
  G2 XOR 2047 16982 23913; G2 XOR 24165 24038 10944; G2 XOR 16981 24038 10943; G2 AND 10944 10943 10942;
  G2 XOR 10942 24038 24039; G2 XOR 24102 24039 2046; G2 XOR 2046 16983 23914; G2 XOR 24166 24039 10941;
  G2 XOR 16982 24039 10940; G2 AND 10941 10940 10939; G2 XOR 10939 24039 24040; G2 XOR 24103 24040 2045;
  G2 XOR 2045 16984 23915; G2 XOR 24167 24040 10938; G2 XOR 16983 24040 10937; G2 AND 10938 10937 10936;
  G2 XOR 10936 24040 24041; G2 XOR 24104 24041 2044; G2 XOR 2044 16985 23916; G2 XOR 24168 24041 10935;
  G2 XOR 16984 24041 10934; G2 AND 10935 10934 10933; G2 XOR 10933 24041 24042; G2 XOR 24105 24042 2043;
  G2 XOR 2043 16986 23917; G2 XOR 24169 24042 10932; G2 XOR 16985 24042 10931; G2 AND 10932 10931 10930;
  G2 XOR 10930 24042 24043; G2 XOR 24106 24043 2042; G2 XOR 2042 16987 23918; G2 XOR 24170 24043 10929;
  G2 XOR 16986 24043 10928; G2 AND 10929 10928 10927; G2 XOR 10927 24043 24044; G2 XOR 24107 24044 2041;
  G2 XOR 2041 16988 23919; G2 XOR 24171 24044 10926; G2 XOR 16987 24044 10925; G2 AND 10926 10925 10924;
  G2 XOR 10924 24044 24045; G2 XOR 24108 24045 2040; G2 XOR 2040 16989 23920; G2 XOR 24172 24045 10923;
  G2 XOR 16988 24045 10922; G2 AND 10923 10922 10921; G2 XOR 10921 24045 24046; G2 XOR 24109 24046 2039;
  G2 XOR 2039 16990 23921; G2 XOR 24173 24046 10920; G2 XOR 16989 24046 10919; G2 AND 10920 10919 10918;
  G2 XOR 10918 24046 24047; G2 XOR 24110 24047 2038; G2 XOR 2038 16991 23922; G2 XOR 24174 24047 10917;
  G2 XOR 16990 24047 10916; G2 AND 10917 10916 10915; G2 XOR 10915 24047 24048; G2 XOR 24111 24048 2037;
  G2 XOR 2037 16992 23923; G2 XOR 24175 24048 10914; G2 XOR 16991 24048 10913; G2 AND 10914 10913 10912;
  G2 XOR 10912 24048 24049; G2 XOR 24112 24049 2036; G2 XOR 2036 16993 23924; G2 XOR 24176 24049 10911;
  G2 XOR 16992 24049 10910; G2 AND 10911 10910 10909; G2 XOR 10909 24049 24050; G2 XOR 24113 24050 2035;
  G2 XOR 2035 16994 23925; G2 XOR 24177 24050 10908; G2 XOR 16993 24050 10907; G2 AND 10908 10907 10906;
  G2 XOR 10906 24050 24051; G2 XOR 24114 24051 2034; G2 XOR 2034 16995 23926; G2 XOR 24178 24051 10905;
  G2 XOR 16994 24051 10904; G2 AND 10905 10904 10903; G2 XOR 10903 24051 24052; G2 XOR 24115 24052 2033;
  G2 XOR 2033 16996 23927; G2 XOR 24179 24052 10902; G2 XOR 16995 24052 10901; G2 AND 10902 10901 10900;
  G2 XOR 10900 24052 24053; G2 XOR 24116 24053 2032; G2 XOR 2032 16997 23928; G2 XOR 24180 24053 10899;
  G2 XOR 16996 24053 10898; G2 AND 10899 10898 10897; G2 XOR 10897 24053 24054; G2 XOR 24117 24054 2031;
  G2 XOR 2031 16998 23929; G2 XOR 24181 24054 10896; G2 XOR 16997 24054 10895; G2 AND 10896 10895 10894;
  G2 XOR 10894 24054 24055; G2 XOR 24118 24055 2030; G2 XOR 2030 16999 23930; G2 XOR 24182 24055 10893;
  G2 XOR 16998 24055 10892; G2 AND 10893 10892 10891; G2 XOR 10891 24055 24056; G2 XOR 24119 24056 2029;
  G2 XOR 2029 17000 23931; G2 XOR 24183 24056 10890; G2 XOR 16999 24056 10889; G2 AND 10890 10889 10888;
  G2 XOR 10888 24056 24057; G2 XOR 24120 24057 2028; G2 XOR 2028 17001 23932; G2 XOR 24184 24057 10887;
  G2 XOR 17000 24057 10886; G2 AND 10887 10886 10885; G2 XOR 10885 24057 24058; G2 XOR 24121 24058 2027;
  G2 XOR 2027 17002 23933; G2 XOR 24185 24058 10884; G2 XOR 17001 24058 10883; G2 AND 10884 10883 10882;
  G2 XOR 10882 24058 24059; G2 XOR 24122 24059 2026; G2 XOR 2026 17003 23934; G2 XOR 24186 24059 10881;
  G2 XOR 17002 24059 10880; G2 AND 10881 10880 10879; G2 XOR 10879 24059 24060; G2 XOR 24123 24060 2025;
  G2 XOR 2025 17004 23935; G2 XOR 24187 24060 10878; G2 XOR 17003 24060 10877; G2 AND 10878 10877 10876;
  G2 XOR 10876 24060 24061; G2 XOR 24124 24061 2024; G2 XOR 2024 17005 23936; G2 XOR 24188 24061 10875;
  G2 XOR 17004 24061 10874; G2 AND 10875 10874 10873; G2 XOR 10873 24061 24062; G2 XOR 24125 24062 2023;
  G2 XOR 2023 17006 23937; G2 XOR 24189 24062 10872; G2 XOR 17005 24062 10871; G2 AND 10872 10871 10870;
  G2 XOR 10870 24062 24063; G2 XOR 24126 24063 2022; G2 XOR 2022 17007 23938; G2 XOR 24190 24063 10869;
  G2 XOR 17006 24063 10868; G2 AND 10869 10868 10867; G2 XOR 10867 24063 24064; G2 XOR 24127 24064 2021;
  G2 XOR 2021 17008 23939; G2 XOR 24191 24064 10866; G2 XOR 17007 24064 10865; G2 AND 10866 10865 10864;
  G2 XOR 10864 24064 24065; G2 XOR 24128 24065 2020; G2 XOR 2020 17009 23940; G2 XOR 24192 24065 10863;
  G2 XOR 17008 24065 10862; G2 AND 10863 10862 10861; G2 XOR 10861 24065 24066; G2 XOR 24129 24066 159;
  G2 AND 16664 4535 17548; G1 INV 159 16663; G2 XOR 16852 16663 23941; G2 XOR 2082 16663 23942;
  G2 XOR 2081 16663 23943; G2 XOR 2080 16663 23944; G2 XOR 2079 16663 23945; G2 XOR 2078 16663 23946;
  G2 XOR 2077 16663 23947; G2 XOR 2076 16663 23948; G2 XOR 2075 16663 23949; G2 XOR 2074 16663 23950;
  G2 XOR 2073 16663 23951; G2 XOR 2072 16663 23952; G2 XOR 2071 16663 23953; G2 XOR 2070 16663 23954;
  G2 XOR 2069 16663 23955; G2 XOR 2068 16663 23956; G2 XOR 2067 16663 23957; G2 XOR 2066 16663 23958;
  G2 XOR 2065 16663 23959; G2 XOR 2064 16663 23960; G2 XOR 2063 16663 23961; G2 XOR 2062 16663 23962;
  G2 XOR 2061 16663 23963; G2 XOR 2060 16663 23964; G2 XOR 2059 16663 23965; G2 XOR 2058 16663 23966;
  G2 XOR 2057 16663 23967; G2 XOR 2056 16663 23968; G2 XOR 2055 16663 23969; G2 XOR 2054 16663 23970;
  G2 XOR 2053 16663 23971; G2 XOR 2052 16663 23972; G2 XOR 2051 16663 23973; G2 XOR 2050 16663 23974;
  G2 XOR 2049 16663 23975; G2 XOR 2048 16663 23976; G2 XOR 2047 16663 23977; G2 XOR 2046 16663 23978;
  G2 XOR 2045 16663 23979; G2 XOR 2044 16663 23980; G2 XOR 2043 16663 23981; G2 XOR 2042 16663 23982;
  G2 XOR 2041 16663 23983; G2 XOR 2040 16663 23984; G2 XOR 2039 16663 23985; G2 XOR 2038 16663 23986;
  G2 XOR 2037 16663 23987; G2 XOR 2036 16663 23988; G2 XOR 2035 16663 23989; G2 XOR 2034 16663 23990;
  G2 XOR 2033 16663 23991; G2 XOR 2032 16663 23992; G2 XOR 2031 16663 23993; G2 XOR 2030 16663 23994;
  G2 XOR 2029 16663 23995; G2 XOR 2028 16663 23996; G2 XOR 2027 16663 23997; G2 XOR 2026 16663 23998;
  G2 XOR 2025 16663 23999; G2 XOR 2024 16663 24000; G2 XOR 2023 16663 24001; G2 XOR 2022 16663 24002;
  G2 XOR 2021 16663 24003; G2 AND 23941 16946 23815; G2 XOR 23878 23815 2144; G2 XOR 2144 16948 23690;
  G2 XOR 23942 23815 10860; G2 XOR 16947 23815 10859; G2 AND 10860 10859 10858; G2 XOR 10858 23815 23816;
  G2 XOR 23879 23816 2143; G2 XOR 2143 16949 23691; G2 XOR 23943 23816 10857; G2 XOR 16948 23816 10856;
  G2 AND 10857 10856 10855; G2 XOR 10855 23816 23817; G2 XOR 23880 23817 2142; G2 XOR 2142 16950 23692;
  G2 XOR 23944 23817 10854; G2 XOR 16949 23817 10853; G2 AND 10854 10853 10852; G2 XOR 10852 23817 23818;
  G2 XOR 23881 23818 2141; G2 XOR 2141 16951 23693; G2 XOR 23945 23818 10851; G2 XOR 16950 23818 10850;
  G2 AND 10851 10850 10849; G2 XOR 10849 23818 23819; G2 XOR 23882 23819 2140; G2 XOR 2140 16952 23694;
  G2 XOR 23946 23819 10848; G2 XOR 16951 23819 10847; G2 AND 10848 10847 10846; G2 XOR 10846 23819 23820;
  G2 XOR 23883 23820 2139; G2 XOR 2139 16953 23695; G2 XOR 23947 23820 10845; G2 XOR 16952 23820 10844;
  G2 AND 10845 10844 10843; G2 XOR 10843 23820 23821; G2 XOR 23884 23821 2138; G2 XOR 2138 16954 23696;
  G2 XOR 23948 23821 10842; G2 XOR 16953 23821 10841; G2 AND 10842 10841 10840; G2 XOR 10840 23821 23822;
  G2 XOR 23885 23822 2137; G2 XOR 2137 16955 23697; G2 XOR 23949 23822 10839; G2 XOR 16954 23822 10838;
  G2 AND 10839 10838 10837; G2 XOR 10837 23822 23823; G2 XOR 23886 23823 2136; G2 XOR 2136 16956 23698;
  G2 XOR 23950 23823 10836; G2 XOR 16955 23823 10835; G2 AND 10836 10835 10834; G2 XOR 10834 23823 23824;
  G2 XOR 23887 23824 2135; G2 XOR 2135 16957 23699; G2 XOR 23951 23824 10833; G2 XOR 16956 23824 10832;
  G2 AND 10833 10832 10831; G2 XOR 10831 23824 23825; G2 XOR 23888 23825 2134; G2 XOR 2134 16958 23700;
  G2 XOR 23952 23825 10830; G2 XOR 16957 23825 10829; G2 AND 10830 10829 10828; G2 XOR 10828 23825 23826;
  G2 XOR 23889 23826 2133; G2 XOR 2133 16959 23701; G2 XOR 23953 23826 10827; G2 XOR 16958 23826 10826;
  G2 AND 10827 10826 10825; G2 XOR 10825 23826 23827; G2 XOR 23890 23827 2132; G2 XOR 2132 16960 23702;
  G2 XOR 23954 23827 10824; G2 XOR 16959 23827 10823; G2 AND 10824 10823 10822; G2 XOR 10822 23827 23828;
  G2 XOR 23891 23828 2131; G2 XOR 2131 16961 23703; G2 XOR 23955 23828 10821; G2 XOR 16960 23828 10820;
  G2 AND 10821 10820 10819; G2 XOR 10819 23828 23829; G2 XOR 23892 23829 2130; G2 XOR 2130 16962 23704;
  G2 XOR 23956 23829 10818; G2 XOR 16961 23829 10817; G2 AND 10818 10817 10816; G2 XOR 10816 23829 23830;
  G2 XOR 23893 23830 2129; G2 XOR 2129 16963 23705; G2 XOR 23957 23830 10815; G2 XOR 16962 23830 10814;
  G2 AND 10815 10814 10813; G2 XOR 10813 23830 23831; G2 XOR 23894 23831 2128; G2 XOR 2128 16964 23706;
  G2 XOR 23958 23831 10812; G2 XOR 16963 23831 10811; G2 AND 10812 10811 10810; G2 XOR 10810 23831 23832;
  G2 XOR 23895 23832 2127; G2 XOR 2127 16965 23707; G2 XOR 23959 23832 10809; G2 XOR 16964 23832 10808;
  G2 AND 10809 10808 10807; G2 XOR 10807 23832 23833; G2 XOR 23896 23833 2126; G2 XOR 2126 16966 23708;
  G2 XOR 23960 23833 10806; G2 XOR 16965 23833 10805; G2 AND 10806 10805 10804; G2 XOR 10804 23833 23834;
  G2 XOR 23897 23834 2125; G2 XOR 2125 16967 23709; G2 XOR 23961 23834 10803; G2 XOR 16966 23834 10802;
  G2 AND 10803 10802 10801; G2 XOR 10801 23834 23835; G2 XOR 23898 23835 2124; G2 XOR 2124 16968 23710;
  G2 XOR 23962 23835 10800; G2 XOR 16967 23835 10799; G2 AND 10800 10799 10798; G2 XOR 10798 23835 23836;
  G2 XOR 23899 23836 2123; G2 XOR 2123 16969 23711; G2 XOR 23963 23836 10797; G2 XOR 16968 23836 10796;
  G2 AND 10797 10796 10795; G2 XOR 10795 23836 23837; G2 XOR 23900 23837 2122; G2 XOR 2122 16970 23712;
  G2 XOR 23964 23837 10794; G2 XOR 16969 23837 10793; G2 AND 10794 10793 10792; G2 XOR 10792 23837 23838;
  G2 XOR 23901 23838 2121; G2 XOR 2121 16971 23713; G2 XOR 23965 23838 10791; G2 XOR 16970 23838 10790;
  G2 AND 10791 10790 10789; G2 XOR 10789 23838 23839; G2 XOR 23902 23839 2120; G2 XOR 2120 16972 23714;
  G2 XOR 23966 23839 10788; G2 XOR 16971 23839 10787; G2 AND 10788 10787 10786; G2 XOR 10786 23839 23840;
  G2 XOR 23903 23840 2119; G2 XOR 2119 16973 23715; G2 XOR 23967 23840 10785; G2 XOR 16972 23840 10784;
  G2 AND 10785 10784 10783; G2 XOR 10783 23840 23841; G2 XOR 23904 23841 2118; G2 XOR 2118 16974 23716;
  G2 XOR 23968 23841 10782; G2 XOR 16973 23841 10781; G2 AND 10782 10781 10780; G2 XOR 10780 23841 23842;
  G2 XOR 23905 23842 2117; G2 XOR 2117 16975 23717; G2 XOR 23969 23842 10779; G2 XOR 16974 23842 10778;
  G2 AND 10779 10778 10777; G2 XOR 10777 23842 23843; G2 XOR 23906 23843 2116; G2 XOR 2116 16976 23718;
  G2 XOR 23970 23843 10776; G2 XOR 16975 23843 10775; G2 AND 10776 10775 10774; G2 XOR 10774 23843 23844;
  G2 XOR 23907 23844 2115; G2 XOR 2115 16977 23719; G2 XOR 23971 23844 10773; G2 XOR 16976 23844 10772;
  G2 AND 10773 10772 10771; G2 XOR 10771 23844 23845; G2 XOR 23908 23845 2114; G2 XOR 2114 16978 23720;
  G2 XOR 23972 23845 10770; G2 XOR 16977 23845 10769; G2 AND 10770 10769 10768; G2 XOR 10768 23845 23846;
  G2 XOR 23909 23846 2113; G2 XOR 2113 16979 23721; G2 XOR 23973 23846 10767; G2 XOR 16978 23846 10766;
  G2 AND 10767 10766 10765; G2 XOR 10765 23846 23847; G2 XOR 23910 23847 2112; G2 XOR 2112 16980 23722;
  G2 XOR 23974 23847 10764; G2 XOR 16979 23847 10763; G2 AND 10764 10763 10762; G2 XOR 10762 23847 23848;
  G2 XOR 23911 23848 2111; G2 XOR 2111 16981 23723; G2 XOR 23975 23848 10761; G2 XOR 16980 23848 10760;
  G2 AND 10761 10760 10759; G2 XOR 10759 23848 23849; G2 XOR 23912 23849 2110; G2 XOR 2110 16982 23724;
  G2 XOR 23976 23849 10758; G2 XOR 16981 23849 10757; G2 AND 10758 10757 10756; G2 XOR 10756 23849 23850;
  G2 XOR 23913 23850 2109; G2 XOR 2109 16983 23725; G2 XOR 23977 23850 10755; G2 XOR 16982 23850 10754;
  G2 AND 10755 10754 10753; G2 XOR 10753 23850 23851; G2 XOR 23914 23851 2108; G2 XOR 2108 16984 23726;
  G2 XOR 23978 23851 10752; G2 XOR 16983 23851 10751; G2 AND 10752 10751 10750; G2 XOR 10750 23851 23852;
  G2 XOR 23915 23852 2107; G2 XOR 2107 16985 23727; G2 XOR 23979 23852 10749; G2 XOR 16984 23852 10748;
  G2 AND 10749 10748 10747; G2 XOR 10747 23852 23853; G2 XOR 23916 23853 2106; G2 XOR 2106 16986 23728;
  G2 XOR 23980 23853 10746; G2 XOR 16985 23853 10745; G2 AND 10746 10745 10744; G2 XOR 10744 23853 23854;
  G2 XOR 23917 23854 2105; G2 XOR 2105 16987 23729; G2 XOR 23981 23854 10743; G2 XOR 16986 23854 10742;
  G2 AND 10743 10742 10741; G2 XOR 10741 23854 23855; G2 XOR 23918 23855 2104; G2 XOR 2104 16988 23730;
  G2 XOR 23982 23855 10740; G2 XOR 16987 23855 10739; G2 AND 10740 10739 10738; G2 XOR 10738 23855 23856;
  G2 XOR 23919 23856 2103; G2 XOR 2103 16989 23731; G2 XOR 23983 23856 10737; G2 XOR 16988 23856 10736;
  G2 AND 10737 10736 10735; G2 XOR 10735 23856 23857; G2 XOR 23920 23857 2102; G2 XOR 2102 16990 23732;
  G2 XOR 23984 23857 10734; G2 XOR 16989 23857 10733; G2 AND 10734 10733 10732; G2 XOR 10732 23857 23858;
  G2 XOR 23921 23858 2101; G2 XOR 2101 16991 23733; G2 XOR 23985 23858 10731; G2 XOR 16990 23858 10730;
  G2 AND 10731 10730 10729; G2 XOR 10729 23858 23859; G2 XOR 23922 23859 2100; G2 XOR 2100 16992 23734;
  G2 XOR 23986 23859 10728; G2 XOR 16991 23859 10727; G2 AND 10728 10727 10726; G2 XOR 10726 23859 23860;
  G2 XOR 23923 23860 2099; G2 XOR 2099 16993 23735; G2 XOR 23987 23860 10725; G2 XOR 16992 23860 10724;
  G2 AND 10725 10724 10723; G2 XOR 10723 23860 23861; G2 XOR 23924 23861 2098; G2 XOR 2098 16994 23736;
  G2 XOR 23988 23861 10722; G2 XOR 16993 23861 10721; G2 AND 10722 10721 10720; G2 XOR 10720 23861 23862;
  G2 XOR 23925 23862 2097; G2 XOR 2097 16995 23737; G2 XOR 23989 23862 10719; G2 XOR 16994 23862 10718;
  G2 AND 10719 10718 10717; G2 XOR 10717 23862 23863; G2 XOR 23926 23863 2096; G2 XOR 2096 16996 23738;
  G2 XOR 23990 23863 10716; G2 XOR 16995 23863 10715; G2 AND 10716 10715 10714; G2 XOR 10714 23863 23864;
  G2 XOR 23927 23864 2095; G2 XOR 2095 16997 23739; G2 XOR 23991 23864 10713; G2 XOR 16996 23864 10712;
  G2 AND 10713 10712 10711; G2 XOR 10711 23864 23865; G2 XOR 23928 23865 2094; G2 XOR 2094 16998 23740;
  G2 XOR 23992 23865 10710; G2 XOR 16997 23865 10709; G2 AND 10710 10709 10708; G2 XOR 10708 23865 23866;
  G2 XOR 23929 23866 2093; G2 XOR 2093 16999 23741; G2 XOR 23993 23866 10707; G2 XOR 16998 23866 10706;
  G2 AND 10707 10706 10705; G2 XOR 10705 23866 23867; G2 XOR 23930 23867 2092; G2 XOR 2092 17000 23742;
  G2 XOR 23994 23867 10704; G2 XOR 16999 23867 10703; G2 AND 10704 10703 10702; G2 XOR 10702 23867 23868;
  G2 XOR 23931 23868 2091; G2 XOR 2091 17001 23743; G2 XOR 23995 23868 10701; G2 XOR 17000 23868 10700;
  G2 AND 10701 10700 10699; G2 XOR 10699 23868 23869; G2 XOR 23932 23869 2090; G2 XOR 2090 17002 23744;
  G2 XOR 23996 23869 10698; G2 XOR 17001 23869 10697; G2 AND 10698 10697 10696; G2 XOR 10696 23869 23870;
  G2 XOR 23933 23870 2089; G2 XOR 2089 17003 23745; G2 XOR 23997 23870 10695; G2 XOR 17002 23870 10694;
  G2 AND 10695 10694 10693; G2 XOR 10693 23870 23871; G2 XOR 23934 23871 2088; G2 XOR 2088 17004 23746;
  G2 XOR 23998 23871 10692; G2 XOR 17003 23871 10691; G2 AND 10692 10691 10690; G2 XOR 10690 23871 23872;
  G2 XOR 23935 23872 2087; G2 XOR 2087 17005 23747; G2 XOR 23999 23872 10689; G2 XOR 17004 23872 10688;
  G2 AND 10689 10688 10687; G2 XOR 10687 23872 23873; G2 XOR 23936 23873 2086; G2 XOR 2086 17006 23748;
  G2 XOR 24000 23873 10686; G2 XOR 17005 23873 10685; G2 AND 10686 10685 10684; G2 XOR 10684 23873 23874;
  G2 XOR 23937 23874 2085; G2 XOR 2085 17007 23749; G2 XOR 24001 23874 10683; G2 XOR 17006 23874 10682;
  G2 AND 10683 10682 10681; G2 XOR 10681 23874 23875; G2 XOR 23938 23875 2084; G2 XOR 2084 17008 23750;
  G2 XOR 24002 23875 10680; G2 XOR 17007 23875 10679; G2 AND 10680 10679 10678; G2 XOR 10678 23875 23876;
  G2 XOR 23939 23876 2083; G2 XOR 2083 17009 23751; G2 XOR 24003 23876 10677; G2 XOR 17008 23876 10676;
  G2 AND 10677 10676 10675; G2 XOR 10675 23876 23877; G2 XOR 23940 23877 160; G1 INV 160 16662;
  G2 XOR 2096 16662 23802; G2 XOR 2095 16662 23803; G2 XOR 2094 16662 23804; G2 XOR 2093 16662 23805;
  G2 XOR 2092 16662 23806; G2 XOR 2091 16662 23807; G2 XOR 2090 16662 23808; G2 XOR 2089 16662 23809;
  G2 XOR 2088 16662 23810; G2 XOR 2087 16662 23811; G2 XOR 2086 16662 23812; G2 XOR 2085 16662 23813;
  G2 XOR 2084 16662 23814; G2 XOR 2145 16662 23753; G2 XOR 2139 16662 23759; G2 XOR 2133 16662 23765;
  G2 XOR 2127 16662 23771; G2 XOR 2121 16662 23777; G2 XOR 2115 16662 23783; G2 XOR 2109 16662 23789;
  G2 XOR 2103 16662 23795; G2 XOR 16851 16662 23752; G2 AND 23752 16946 23626; G2 XOR 23689 23626 2207;
  G2 XOR 23753 23626 10674; G2 XOR 16947 23626 10673; G2 AND 10674 10673 10672; G2 XOR 10672 23626 23627;
  G2 XOR 23690 23627 2206; G2 XOR 16948 23627 10670; G2 XOR 2207 16948 23501; G2 XOR 2206 16949 23502;
  G2 XOR 2141 16662 23757; G2 XOR 2142 16662 23756; G2 XOR 2144 16662 23754; G2 XOR 23754 23627 10671;
  G2 AND 10671 10670 10669; G2 XOR 10669 23627 23628; G2 XOR 23691 23628 2205; G2 XOR 16949 23628 10667;
  G2 XOR 2205 16950 23503; G2 XOR 2143 16662 23755; G2 XOR 23755 23628 10668; G2 AND 10668 10667 10666;
  G2 XOR 10666 23628 23629; G2 XOR 23692 23629 2204; G2 XOR 23756 23629 10665; G2 XOR 16950 23629 10664;
  G2 AND 10665 10664 10663; G2 XOR 10663 23629 23630; G2 XOR 23693 23630 2203; G2 XOR 23757 23630 10662;
  G2 XOR 16951 23630 10661; G2 AND 10662 10661 10660; G2 XOR 10660 23630 23631; G2 XOR 23694 23631 2202;
  G2 XOR 16952 23631 10658; G2 XOR 2204 16951 23504; G2 XOR 2203 16952 23505; G2 XOR 2202 16953 23506;
  G2 XOR 2140 16662 23758; G2 XOR 23758 23631 10659; G2 AND 10659 10658 10657; G2 XOR 10657 23631 23632;
  G2 XOR 23695 23632 2201; G2 XOR 23759 23632 10656; G2 XOR 16953 23632 10655; G2 AND 10656 10655 10654;
  G2 XOR 10654 23632 23633; G2 XOR 23696 23633 2200; G2 XOR 16954 23633 10652; G2 XOR 2201 16954 23507;
  G2 XOR 2200 16955 23508; G2 XOR 2135 16662 23763; G2 XOR 2136 16662 23762; G2 XOR 2138 16662 23760;
  G2 XOR 23760 23633 10653; G2 AND 10653 10652 10651; G2 XOR 10651 23633 23634; G2 XOR 23697 23634 2199;
  G2 XOR 16955 23634 10649; G2 XOR 2199 16956 23509; G2 XOR 2137 16662 23761; G2 XOR 23761 23634 10650;
  G2 AND 10650 10649 10648; G2 XOR 10648 23634 23635; G2 XOR 23698 23635 2198; G2 XOR 23762 23635 10647;
  G2 XOR 16956 23635 10646; G2 AND 10647 10646 10645; G2 XOR 10645 23635 23636; G2 XOR 23699 23636 2197;
  G2 XOR 23763 23636 10644; G2 XOR 16957 23636 10643; G2 AND 10644 10643 10642; G2 XOR 10642 23636 23637;
  G2 XOR 23700 23637 2196; G2 XOR 16958 23637 10640; G2 XOR 2198 16957 23510; G2 XOR 2197 16958 23511;
  G2 XOR 2196 16959 23512; G2 XOR 2134 16662 23764; G2 XOR 23764 23637 10641; G2 AND 10641 10640 10639;
  G2 XOR 10639 23637 23638; G2 XOR 23701 23638 2195; G2 XOR 23765 23638 10638; G2 XOR 16959 23638 10637;
  G2 AND 10638 10637 10636; G2 XOR 10636 23638 23639; G2 XOR 23702 23639 2194; G2 XOR 16960 23639 10634;
  G2 XOR 2195 16960 23513; G2 XOR 2194 16961 23514; G2 XOR 2129 16662 23769; G2 XOR 2130 16662 23768;
  G2 XOR 2132 16662 23766; G2 XOR 23766 23639 10635; G2 AND 10635 10634 10633; G2 XOR 10633 23639 23640;
  G2 XOR 23703 23640 2193; G2 XOR 16961 23640 10631; G2 XOR 2193 16962 23515; G2 XOR 2131 16662 23767;
  G2 XOR 23767 23640 10632; G2 AND 10632 10631 10630; G2 XOR 10630 23640 23641; G2 XOR 23704 23641 2192;
  G2 XOR 23768 23641 10629; G2 XOR 16962 23641 10628; G2 AND 10629 10628 10627; G2 XOR 10627 23641 23642;
  G2 XOR 23705 23642 2191; G2 XOR 23769 23642 10626; G2 XOR 16963 23642 10625; G2 AND 10626 10625 10624;
  G2 XOR 10624 23642 23643; G2 XOR 23706 23643 2190; G2 XOR 16964 23643 10622; G2 XOR 2192 16963 23516;
  G2 XOR 2191 16964 23517; G2 XOR 2190 16965 23518; G2 XOR 2128 16662 23770; G2 XOR 23770 23643 10623;
  G2 AND 10623 10622 10621; G2 XOR 10621 23643 23644; G2 XOR 23707 23644 2189; G2 XOR 23771 23644 10620;
  G2 XOR 16965 23644 10619; G2 AND 10620 10619 10618; G2 XOR 10618 23644 23645; G2 XOR 23708 23645 2188;
  G2 XOR 16966 23645 10616; G2 XOR 2189 16966 23519; G2 XOR 2188 16967 23520; G2 XOR 2123 16662 23775;
  G2 XOR 2124 16662 23774; G2 XOR 2126 16662 23772; G2 XOR 23772 23645 10617; G2 AND 10617 10616 10615;
  G2 XOR 10615 23645 23646; G2 XOR 23709 23646 2187; G2 XOR 16967 23646 10613; G2 XOR 2187 16968 23521;
  G2 XOR 2125 16662 23773; G2 XOR 23773 23646 10614; G2 AND 10614 10613 10612; G2 XOR 10612 23646 23647;
  G2 XOR 23710 23647 2186; G2 XOR 23774 23647 10611; G2 XOR 16968 23647 10610; G2 AND 10611 10610 10609;
  G2 XOR 10609 23647 23648; G2 XOR 23711 23648 2185; G2 XOR 23775 23648 10608; G2 XOR 16969 23648 10607;
  G2 AND 10608 10607 10606; G2 XOR 10606 23648 23649; G2 XOR 23712 23649 2184; G2 XOR 16970 23649 10604;
  G2 XOR 2186 16969 23522; G2 XOR 2185 16970 23523; G2 XOR 2184 16971 23524; G2 XOR 2122 16662 23776;
  G2 XOR 23776 23649 10605; G2 AND 10605 10604 10603; G2 XOR 10603 23649 23650; G2 XOR 23713 23650 2183;
  G2 XOR 23777 23650 10602; G2 XOR 16971 23650 10601; G2 AND 10602 10601 10600; G2 XOR 10600 23650 23651;
  G2 XOR 23714 23651 2182; G2 XOR 16972 23651 10598; G2 XOR 2183 16972 23525; G2 XOR 2182 16973 23526;
  G2 XOR 2117 16662 23781; G2 XOR 2118 16662 23780; G2 XOR 2120 16662 23778; G2 XOR 23778 23651 10599;
  G2 AND 10599 10598 10597; G2 XOR 10597 23651 23652; G2 XOR 23715 23652 2181; G2 XOR 16973 23652 10595;
  G2 XOR 2181 16974 23527; G2 XOR 2119 16662 23779; G2 XOR 23779 23652 10596; G2 AND 10596 10595 10594;
  G2 XOR 10594 23652 23653; G2 XOR 23716 23653 2180; G2 XOR 23780 23653 10593; G2 XOR 16974 23653 10592;
  G2 AND 10593 10592 10591; G2 XOR 10591 23653 23654; G2 XOR 23717 23654 2179; G2 XOR 23781 23654 10590;
  G2 XOR 16975 23654 10589; G2 AND 10590 10589 10588; G2 XOR 10588 23654 23655; G2 XOR 23718 23655 2178;
  G2 XOR 16976 23655 10586; G2 XOR 2180 16975 23528; G2 XOR 2179 16976 23529; G2 XOR 2178 16977 23530;
  G2 XOR 2116 16662 23782; G2 XOR 23782 23655 10587; G2 AND 10587 10586 10585; G2 XOR 10585 23655 23656;
  G2 XOR 23719 23656 2177; G2 XOR 23783 23656 10584; G2 XOR 16977 23656 10583; G2 AND 10584 10583 10582;
  G2 XOR 10582 23656 23657; G2 XOR 23720 23657 2176; G2 XOR 16978 23657 10580; G2 XOR 2177 16978 23531;
  G2 XOR 2176 16979 23532; G2 XOR 2111 16662 23787; G2 XOR 2112 16662 23786; G2 XOR 2114 16662 23784;
  G2 XOR 23784 23657 10581; G2 AND 10581 10580 10579; G2 XOR 10579 23657 23658; G2 XOR 16979 23658 10577;
  G2 XOR 23721 23658 2175; G2 XOR 2175 16980 23533; G2 XOR 2113 16662 23785; G2 XOR 23785 23658 10578;
  G2 AND 10578 10577 10576; G2 XOR 10576 23658 23659; G2 XOR 16980 23659 10574; G2 XOR 23722 23659 2174;
  G2 XOR 2174 16981 23534; G2 XOR 23786 23659 10575; G2 AND 10575 10574 10573; G2 XOR 10573 23659 23660;
  G2 XOR 23723 23660 2173; G2 XOR 16981 23660 10571; G2 XOR 2173 16982 23535; G2 XOR 23787 23660 10572;
  G2 AND 10572 10571 10570; G2 XOR 10570 23660 23661; G2 XOR 16982 23661 10568; G2 XOR 23724 23661 2172;
  G2 XOR 2172 16983 23536; G2 XOR 2110 16662 23788; G2 XOR 23788 23661 10569; G2 AND 10569 10568 10567;
  G2 XOR 10567 23661 23662; G2 XOR 16983 23662 10565; G2 XOR 23725 23662 2171; G2 XOR 2171 16984 23537;
  G2 XOR 23789 23662 10566; G2 AND 10566 10565 10564; G2 XOR 10564 23662 23663; G2 XOR 16984 23663 10562;
  G2 XOR 23726 23663 2170; G2 XOR 2170 16985 23538; G2 XOR 2105 16662 23793; G2 XOR 2106 16662 23792;
  G2 XOR 2108 16662 23790; G2 XOR 23790 23663 10563; G2 AND 10563 10562 10561; G2 XOR 10561 23663 23664;
  G2 XOR 23727 23664 2169; G2 XOR 2169 16986 23539; G2 XOR 16985 23664 10559; G2 XOR 2107 16662 23791;
  G2 XOR 23791 23664 10560; G2 AND 10560 10559 10558; G2 XOR 10558 23664 23665; G2 XOR 23728 23665 2168;
  G2 XOR 16986 23665 10556; G2 XOR 2168 16987 23540; G2 XOR 23792 23665 10557; G2 AND 10557 10556 10555;
  G2 XOR 10555 23665 23666; G2 XOR 23793 23666 10554; G2 XOR 16987 23666 10553; G2 XOR 23729 23666 2167;
  G2 XOR 2167 16988 23541; G2 AND 10554 10553 10552; G2 XOR 10552 23666 23667; G2 XOR 23730 23667 2166;
  G2 XOR 2166 16989 23542; G2 XOR 16988 23667 10550; G2 XOR 2104 16662 23794; G2 XOR 23794 23667 10551;
  G2 AND 10551 10550 10549; G2 XOR 10549 23667 23668; G2 XOR 23795 23668 10548; G2 XOR 23731 23668 2165;
  G2 XOR 16989 23668 10547; G2 AND 10548 10547 10546; G2 XOR 10546 23668 23669; G2 XOR 16990 23669 10544;
  G2 XOR 23732 23669 2164; G2 XOR 2165 16990 23543; G2 XOR 2164 16991 23544; G2 XOR 2099 16662 23799;
  G2 XOR 2100 16662 23798; G2 XOR 2102 16662 23796; G2 XOR 23796 23669 10545; G2 AND 10545 10544 10543;
  G2 XOR 10543 23669 23670; G2 XOR 23733 23670 2163; G2 XOR 2163 16992 23545; G2 XOR 16991 23670 10541;
  G2 XOR 2101 16662 23797; G2 XOR 23797 23670 10542; G2 AND 10542 10541 10540; G2 XOR 10540 23670 23671;
  G2 XOR 23734 23671 2162; G2 XOR 2162 16993 23546; G2 XOR 16992 23671 10538; G2 XOR 23798 23671 10539;
  G2 AND 10539 10538 10537; G2 XOR 10537 23671 23672; G2 XOR 23799 23672 10536; G2 XOR 16993 23672 10535;
  G2 AND 10536 10535 10534; G2 XOR 10534 23672 23673; G2 XOR 23736 23673 2160; G2 XOR 23735 23672 2161;
  G2 XOR 16994 23673 10532; G2 XOR 2161 16994 23547; G2 XOR 2160 16995 23548; G2 XOR 2098 16662 23800;
  G2 XOR 23800 23673 10533; G2 AND 10533 10532 10531; G2 XOR 10531 23673 23674; G2 XOR 23737 23674 2159;
  G2 XOR 2159 16996 23549; G2 XOR 16995 23674 10529; G2 AND 16662 4535 17546; G2 XOR 2097 16662 23801;
  G2 XOR 23801 23674 10530; G2 AND 10530 10529 10528; G2 XOR 10528 23674 23675; G2 XOR 23802 23675 10527;
  G2 XOR 23738 23675 2158; G2 XOR 2158 16997 23550; G2 XOR 16996 23675 10526; G2 AND 10527 10526 10525;
  G2 XOR 10525 23675 23676; G2 XOR 16997 23676 10523; G2 XOR 23803 23676 10524; G2 AND 10524 10523 10522;
  G2 XOR 10522 23676 23677; G2 XOR 16998 23677 10520; G2 XOR 23740 23677 2156; G2 XOR 2156 16999 23552;
  G2 XOR 23804 23677 10521; G2 AND 10521 10520 10519; G2 XOR 10519 23677 23678; G2 XOR 23805 23678 10518;
  G2 XOR 16999 23678 10517; G2 AND 10518 10517 10516; G2 XOR 23741 23678 2155; G2 XOR 10516 23678 23679;
  G2 XOR 23742 23679 2154; G2 XOR 23806 23679 10515; G2 XOR 2154 17001 23554; G2 XOR 2155 17000 23553;
  G2 XOR 23739 23676 2157; G2 XOR 2157 16998 23551; G2 XOR 17000 23679 10514; G2 AND 10515 10514 10513;
  G2 XOR 10513 23679 23680; G2 XOR 23743 23680 2153; G2 XOR 23807 23680 10512; G2 XOR 17001 23680 10511;
  G2 AND 10512 10511 10510; G2 XOR 10510 23680 23681; G2 XOR 2153 17002 23555; G2 XOR 23744 23681 2152;
  G2 XOR 2152 17003 23556; G2 XOR 17002 23681 10508; G2 XOR 23808 23681 10509; G2 AND 10509 10508 10507;
  G2 XOR 10507 23681 23682; G2 XOR 23809 23682 10506; G2 XOR 17003 23682 10505; G2 AND 10506 10505 10504;
  G2 XOR 10504 23682 23683; G2 XOR 17004 23683 10502; G2 XOR 23746 23683 2150; G2 XOR 2150 17005 23558;
  G2 XOR 23810 23683 10503; G2 AND 10503 10502 10501; G2 XOR 10501 23683 23684; G2 XOR 23811 23684 10500;
  G2 XOR 23747 23684 2149; G2 XOR 2149 17006 23559; G2 XOR 17005 23684 10499; G2 AND 10500 10499 10498;
  G2 XOR 10498 23684 23685; G2 XOR 17006 23685 10496; G2 XOR 23812 23685 10497; G2 AND 10497 10496 10495;
  G2 XOR 10495 23685 23686; G2 XOR 23749 23686 2147; G2 XOR 23813 23686 10494; G2 XOR 17007 23686 10493;
  G2 AND 10494 10493 10492; G2 XOR 10492 23686 23687; G2 XOR 17008 23687 10490; G2 XOR 23750 23687 2146;
  G2 XOR 2147 17008 23561; G2 XOR 2146 17009 23562; G2 XOR 23748 23685 2148; G2 XOR 2148 17007 23560;
  G2 XOR 23745 23682 2151; G2 XOR 2151 17004 23557; G2 XOR 23814 23687 10491; G2 AND 10491 10490 10489;
  G2 XOR 10489 23687 23688; G2 XOR 23751 23688 161; G1 INV 161 16661; G2 XOR 2158 16661 23614;
  G2 XOR 2157 16661 23615; G2 XOR 2156 16661 23616; G2 XOR 2208 16661 23564; G2 XOR 2202 16661 23570;
  G2 XOR 2196 16661 23576; G2 XOR 2190 16661 23582; G2 XOR 2184 16661 23588; G2 XOR 2178 16661 23594;
  G2 XOR 2172 16661 23600; G2 XOR 2166 16661 23606; G2 XOR 2153 16661 23619; G2 XOR 2151 16661 23621;
  G2 XOR 2154 16661 23618; G2 XOR 2152 16661 23620; G2 XOR 2150 16661 23622; G2 XOR 2149 16661 23623;
  G2 XOR 16850 16661 23563; G2 AND 23563 16946 23437; G2 XOR 16947 23437 10487; G2 XOR 23564 23437 10488;
  G2 AND 10488 10487 10486; G2 XOR 10486 23437 23438; G2 XOR 23501 23438 2269; G2 XOR 16948 23438 10484;
  G2 XOR 23500 23437 2270; G2 XOR 2270 16948 23312; G2 XOR 2269 16949 23313; G2 XOR 2204 16661 23568;
  G2 XOR 2205 16661 23567; G2 XOR 2207 16661 23565; G2 XOR 23565 23438 10485; G2 AND 10485 10484 10483;
  G2 XOR 10483 23438 23439; G2 XOR 23502 23439 2268; G2 XOR 16949 23439 10481; G2 XOR 2268 16950 23314;
  G2 XOR 2206 16661 23566; G2 XOR 23566 23439 10482; G2 AND 10482 10481 10480; G2 XOR 10480 23439 23440;
  G2 XOR 23503 23440 2267; G2 XOR 16950 23440 10478; G2 XOR 23567 23440 10479; G2 AND 10479 10478 10477;
  G2 XOR 10477 23440 23441; G2 XOR 23504 23441 2266; G2 XOR 23568 23441 10476; G2 XOR 16951 23441 10475;
  G2 AND 10476 10475 10474; G2 XOR 10474 23441 23442; G2 XOR 23505 23442 2265; G2 XOR 16952 23442 10472;
  G2 XOR 2267 16951 23315; G2 XOR 2266 16952 23316; G2 XOR 2265 16953 23317; G2 XOR 2203 16661 23569;
  G2 XOR 23569 23442 10473; G2 AND 10473 10472 10471; G2 XOR 10471 23442 23443; G2 XOR 16953 23443 10469;
  G2 XOR 23570 23443 10470; G2 AND 10470 10469 10468; G2 XOR 10468 23443 23444; G2 XOR 23507 23444 2263;
  G2 XOR 16954 23444 10466; G2 XOR 23506 23443 2264; G2 XOR 2264 16954 23318; G2 XOR 2263 16955 23319;
  G2 XOR 2198 16661 23574; G2 XOR 2199 16661 23573; G2 XOR 2201 16661 23571; G2 XOR 23571 23444 10467;
  G2 AND 10467 10466 10465; G2 XOR 10465 23444 23445; G2 XOR 23508 23445 2262; G2 XOR 16955 23445 10463;
  G2 XOR 2262 16956 23320; G2 XOR 2200 16661 23572; G2 XOR 23572 23445 10464; G2 AND 10464 10463 10462;
  G2 XOR 10462 23445 23446; G2 XOR 23509 23446 2261; G2 XOR 16956 23446 10460; G2 XOR 23573 23446 10461;
  G2 AND 10461 10460 10459; G2 XOR 10459 23446 23447; G2 XOR 23510 23447 2260; G2 XOR 23574 23447 10458;
  G2 XOR 16957 23447 10457; G2 AND 10458 10457 10456; G2 XOR 10456 23447 23448; G2 XOR 23511 23448 2259;
  G2 XOR 16958 23448 10454; G2 XOR 2261 16957 23321; G2 XOR 2260 16958 23322; G2 XOR 2259 16959 23323;
  G2 XOR 2197 16661 23575; G2 XOR 23575 23448 10455; G2 AND 10455 10454 10453; G2 XOR 10453 23448 23449;
  G2 XOR 16959 23449 10451; G2 XOR 23576 23449 10452; G2 AND 10452 10451 10450; G2 XOR 10450 23449 23450;
  G2 XOR 23513 23450 2257; G2 XOR 16960 23450 10448; G2 XOR 23512 23449 2258; G2 XOR 2258 16960 23324;
  G2 XOR 2257 16961 23325; G2 XOR 2192 16661 23580; G2 XOR 2193 16661 23579; G2 XOR 2195 16661 23577;
  G2 XOR 23577 23450 10449; G2 AND 10449 10448 10447; G2 XOR 10447 23450 23451; G2 XOR 23514 23451 2256;
  G2 XOR 16961 23451 10445; G2 XOR 2256 16962 23326; G2 XOR 2194 16661 23578; G2 XOR 23578 23451 10446;
  G2 AND 10446 10445 10444; G2 XOR 10444 23451 23452; G2 XOR 23579 23452 10443; G2 XOR 23515 23452 2255;
  G2 XOR 16962 23452 10442; G2 AND 10443 10442 10441; G2 XOR 10441 23452 23453; G2 XOR 23516 23453 2254;
  G2 XOR 23580 23453 10440; G2 XOR 16963 23453 10439; G2 AND 10440 10439 10438; G2 XOR 10438 23453 23454;
  G2 XOR 23517 23454 2253; G2 XOR 16964 23454 10436; G2 XOR 2255 16963 23327; G2 XOR 2254 16964 23328;
  G2 XOR 2253 16965 23329; G2 XOR 2191 16661 23581; G2 XOR 23581 23454 10437; G2 AND 10437 10436 10435;
  G2 XOR 10435 23454 23455; G2 XOR 16965 23455 10433; G2 XOR 23582 23455 10434; G2 AND 10434 10433 10432;
  G2 XOR 10432 23455 23456; G2 XOR 23519 23456 2251; G2 XOR 16966 23456 10430; G2 XOR 23518 23455 2252;
  G2 XOR 2252 16966 23330; G2 XOR 2251 16967 23331; G2 XOR 2186 16661 23586; G2 XOR 2187 16661 23585;
  G2 XOR 2189 16661 23583; G2 XOR 23583 23456 10431; G2 AND 10431 10430 10429; G2 XOR 10429 23456 23457;
  G2 XOR 23520 23457 2250; G2 XOR 16967 23457 10427; G2 XOR 2250 16968 23332; G2 XOR 2188 16661 23584;
  G2 XOR 23584 23457 10428; G2 AND 10428 10427 10426; G2 XOR 10426 23457 23458; G2 XOR 23521 23458 2249;
  G2 XOR 16968 23458 10424; G2 XOR 2249 16969 23333; G2 XOR 23585 23458 10425; G2 AND 10425 10424 10423;
  G2 XOR 10423 23458 23459; G2 XOR 23522 23459 2248; G2 XOR 23586 23459 10422; G2 XOR 16969 23459 10421;
  G2 AND 10422 10421 10420; G2 XOR 10420 23459 23460; G2 XOR 23523 23460 2247; G2 XOR 16970 23460 10418;
  G2 XOR 2248 16970 23334; G2 XOR 2247 16971 23335; G2 XOR 2185 16661 23587; G2 XOR 23587 23460 10419;
  G2 AND 10419 10418 10417; G2 XOR 10417 23460 23461; G2 XOR 16971 23461 10415; G2 XOR 23588 23461 10416;
  G2 AND 10416 10415 10414; G2 XOR 10414 23461 23462; G2 XOR 23525 23462 2245; G2 XOR 16972 23462 10412;
  G2 XOR 23524 23461 2246; G2 XOR 2246 16972 23336; G2 XOR 2245 16973 23337; G2 XOR 2180 16661 23592;
  G2 XOR 2181 16661 23591; G2 XOR 2183 16661 23589; G2 XOR 23589 23462 10413; G2 AND 10413 10412 10411;
  G2 XOR 10411 23462 23463; G2 XOR 16973 23463 10409; G2 XOR 23526 23463 2244; G2 XOR 2244 16974 23338;
  G2 XOR 2182 16661 23590; G2 XOR 23590 23463 10410; G2 AND 10410 10409 10408; G2 XOR 10408 23463 23464;
  G2 XOR 16974 23464 10406; G2 XOR 23591 23464 10407; G2 AND 10407 10406 10405; G2 XOR 23527 23464 2243;
  G2 XOR 2243 16975 23339; G2 XOR 10405 23464 23465; G2 XOR 16975 23465 10403; G2 XOR 23528 23465 2242;
  G2 XOR 23592 23465 10404; G2 XOR 2242 16976 23340; G2 AND 10404 10403 10402; G2 XOR 10402 23465 23466;
  G2 XOR 23529 23466 2241; G2 XOR 16976 23466 10400; G2 XOR 2241 16977 23341; G2 XOR 2179 16661 23593;
  G2 XOR 23593 23466 10401; G2 AND 10401 10400 10399; G2 XOR 10399 23466 23467; G2 XOR 23530 23467 2240;
  G2 XOR 16977 23467 10397; G2 XOR 2240 16978 23342; G2 XOR 23594 23467 10398; G2 AND 10398 10397 10396;
  G2 XOR 10396 23467 23468; G2 XOR 23531 23468 2239; G2 XOR 2239 16979 23343; G2 XOR 16978 23468 10394;
  G2 XOR 2174 16661 23598; G2 XOR 2175 16661 23597; G2 XOR 2177 16661 23595; G2 XOR 23595 23468 10395;
  G2 AND 10395 10394 10393; G2 XOR 10393 23468 23469; G2 XOR 23532 23469 2238; G2 XOR 2238 16980 23344;
  G2 XOR 16979 23469 10391; G2 XOR 2176 16661 23596; G2 XOR 23596 23469 10392; G2 AND 10392 10391 10390;
  G2 XOR 10390 23469 23470; G2 XOR 23597 23470 10389; G2 XOR 23533 23470 2237; G2 XOR 16980 23470 10388;
  G2 AND 10389 10388 10387; G2 XOR 10387 23470 23471; G2 XOR 2237 16981 23345; G2 XOR 16981 23471 10385;
  G2 XOR 23534 23471 2236; G2 XOR 2236 16982 23346; G2 XOR 23598 23471 10386; G2 AND 10386 10385 10384;
  G2 XOR 10384 23471 23472; G2 XOR 16982 23472 10382; G2 XOR 23535 23472 2235; G2 XOR 2235 16983 23347;
  G2 XOR 2173 16661 23599; G2 XOR 23599 23472 10383; G2 AND 10383 10382 10381; G2 XOR 10381 23472 23473;
  G2 XOR 23536 23473 2234; G2 XOR 16983 23473 10379; G2 XOR 23600 23473 10380; G2 XOR 2234 16984 23348;
  G2 AND 10380 10379 10378; G2 XOR 10378 23473 23474; G2 XOR 16984 23474 10376; G2 XOR 23537 23474 2233;
  G2 XOR 2233 16985 23349; G2 XOR 2168 16661 23604; G2 XOR 2169 16661 23603; G2 XOR 2171 16661 23601;
  G2 XOR 23601 23474 10377; G2 AND 10377 10376 10375; G2 XOR 10375 23474 23475; G2 XOR 23538 23475 2232;
  G2 XOR 2232 16986 23350; G2 XOR 16985 23475 10373; G2 XOR 2170 16661 23602; G2 XOR 23602 23475 10374;
  G2 AND 10374 10373 10372; G2 XOR 10372 23475 23476; G2 XOR 16986 23476 10370; G2 XOR 23603 23476 10371;
  G2 XOR 23539 23476 2231; G2 XOR 2231 16987 23351; G2 AND 10371 10370 10369; G2 XOR 10369 23476 23477;
  G2 XOR 23604 23477 10368; G2 XOR 16987 23477 10367; G2 XOR 23540 23477 2230; G2 AND 10368 10367 10366;
  G2 XOR 2230 16988 23352; G2 XOR 10366 23477 23478; G2 XOR 16988 23478 10364; G2 XOR 23541 23478 2229;
  G2 XOR 2229 16989 23353; G2 XOR 2167 16661 23605; G2 XOR 23605 23478 10365; G2 AND 10365 10364 10363;
  G2 XOR 10363 23478 23479; G2 XOR 23606 23479 10362; G2 XOR 23542 23479 2228; G2 XOR 16989 23479 10361;
  G2 AND 10362 10361 10360; G2 XOR 10360 23479 23480; G2 XOR 23543 23480 2227; G2 XOR 2228 16990 23354;
  G2 XOR 2227 16991 23355; G2 XOR 16990 23480 10358; G2 XOR 2162 16661 23610; G2 XOR 2163 16661 23609;
  G2 XOR 2165 16661 23607; G2 XOR 23607 23480 10359; G2 AND 10359 10358 10357; G2 XOR 10357 23480 23481;
  G2 XOR 16991 23481 10355; G2 XOR 23544 23481 2226; G2 XOR 2226 16992 23356; G2 XOR 2164 16661 23608;
  G2 XOR 23608 23481 10356; G2 AND 10356 10355 10354; G2 XOR 10354 23481 23482; G2 XOR 23609 23482 10353;
  G2 XOR 16992 23482 10352; G2 AND 10353 10352 10351; G2 XOR 10351 23482 23483; G2 XOR 16993 23483 10349;
  G2 XOR 23546 23483 2224; G2 XOR 2224 16994 23358; G2 XOR 23545 23482 2225; G2 XOR 2225 16993 23357;
  G2 XOR 23610 23483 10350; G2 AND 10350 10349 10348; G2 XOR 10348 23483 23484; G2 XOR 16994 23484 10346;
  G2 XOR 23547 23484 2223; G2 XOR 2223 16995 23359; G2 XOR 2161 16661 23611; G2 XOR 23611 23484 10347;
  G2 AND 10347 10346 10345; G2 XOR 10345 23484 23485; G2 XOR 23548 23485 2222; G2 XOR 16995 23485 10343;
  G2 XOR 2222 16996 23360; G2 XOR 2160 16661 23612; G2 XOR 23612 23485 10344; G2 AND 10344 10343 10342;
  G2 XOR 10342 23485 23486; G2 XOR 23549 23486 2221; G2 XOR 16996 23486 10340; G2 XOR 2221 16997 23361;
  G2 AND 16661 4535 17545; G2 XOR 2147 16661 23625; G2 XOR 2155 16661 23617; G2 XOR 2148 16661 23624;
  G2 XOR 2159 16661 23613; G2 XOR 23613 23486 10341; G2 AND 10341 10340 10339; G2 XOR 10339 23486 23487;
  G2 XOR 23550 23487 2220; G2 XOR 2220 16998 23362; G2 XOR 23614 23487 10338; G2 XOR 16997 23487 10337;
  G2 AND 10338 10337 10336; G2 XOR 10336 23487 23488; G2 XOR 16998 23488 10334; G2 XOR 23615 23488 10335;
  G2 AND 10335 10334 10333; G2 XOR 10333 23488 23489; G2 XOR 23552 23489 2218; G2 XOR 23616 23489 10332;
  G2 XOR 2218 17000 23364; G2 XOR 16999 23489 10331; G2 AND 10332 10331 10330; G2 XOR 10330 23489 23490;
  G2 XOR 23617 23490 10329; G2 XOR 23553 23490 2217; G2 XOR 17000 23490 10328; G2 AND 10329 10328 10327;
  G2 XOR 10327 23490 23491; G2 XOR 23554 23491 2216; G2 XOR 2216 17002 23366; G2 XOR 2217 17001 23365;
  G2 XOR 17001 23491 10325; G2 XOR 23551 23488 2219; G2 XOR 2219 16999 23363; G2 XOR 23618 23491 10326;
  G2 AND 10326 10325 10324; G2 XOR 10324 23491 23492; G2 XOR 23555 23492 2215; G2 XOR 17002 23492 10322;
  G2 XOR 2215 17003 23367; G2 XOR 23619 23492 10323; G2 AND 10323 10322 10321; G2 XOR 10321 23492 23493;
  G2 XOR 17003 23493 10319; G2 XOR 23620 23493 10320; G2 XOR 23556 23493 2214; G2 XOR 2214 17004 23368;
  G2 AND 10320 10319 10318; G2 XOR 10318 23493 23494; G2 XOR 23621 23494 10317; G2 XOR 17004 23494 10316;
  G2 AND 10317 10316 10315; G2 XOR 23557 23494 2213; G2 XOR 2213 17005 23369; G2 XOR 10315 23494 23495;
  G2 XOR 23558 23495 2212; G2 XOR 17005 23495 10313; G2 XOR 2212 17006 23370; G2 XOR 23622 23495 10314;
  G2 AND 10314 10313 10312; G2 XOR 10312 23495 23496; G2 XOR 23559 23496 2211; G2 XOR 23623 23496 10311;
  G2 XOR 2211 17007 23371; G2 XOR 17006 23496 10310; G2 AND 10311 10310 10309; G2 XOR 10309 23496 23497;
  G2 XOR 23560 23497 2210; G2 XOR 2210 17008 23372; G2 XOR 17007 23497 10307; G2 XOR 23624 23497 10308;
  G2 AND 10308 10307 10306; G2 XOR 10306 23497 23498; G2 XOR 23625 23498 10305; G2 XOR 17008 23498 10304;
  G2 XOR 23561 23498 2209; G2 XOR 2209 17009 23373; G2 AND 10305 10304 10303; G2 XOR 10303 23498 23499;
  G2 XOR 23562 23499 162; G1 INV 162 16660; G2 XOR 2210 16660 23436; G2 XOR 2214 16660 23432;
  G2 XOR 2270 16660 23376; G2 XOR 2264 16660 23382; G2 XOR 2258 16660 23388; G2 XOR 2252 16660 23394;
  G2 XOR 2246 16660 23400; G2 XOR 2240 16660 23406; G2 XOR 2234 16660 23412; G2 XOR 2228 16660 23418;
  G2 XOR 2219 16660 23427; G2 XOR 2213 16660 23433; G2 XOR 2215 16660 23431; G2 XOR 2221 16660 23425;
  G2 XOR 2211 16660 23435; G2 XOR 2212 16660 23434; G2 XOR 2220 16660 23426; G2 XOR 2218 16660 23428;
  G2 XOR 2216 16660 23430; G2 XOR 2217 16660 23429; G2 XOR 16849 16660 23374; G2 AND 23374 16946 23248;
  G2 XOR 16947 23248 10301; G2 XOR 23311 23248 2333; G2 XOR 2333 16948 23123; G2 XOR 2271 16660 23375;
  G2 XOR 23375 23248 10302; G2 AND 10302 10301 10300; G2 XOR 10300 23248 23249; G2 XOR 23312 23249 2332;
  G2 XOR 16948 23249 10298; G2 XOR 23376 23249 10299; G2 AND 10299 10298 10297; G2 XOR 10297 23249 23250;
  G2 XOR 23313 23250 2331; G2 XOR 16949 23250 10295; G2 XOR 2332 16949 23124; G2 XOR 2331 16950 23125;
  G2 XOR 2266 16660 23380; G2 XOR 2267 16660 23379; G2 XOR 2269 16660 23377; G2 XOR 23377 23250 10296;
  G2 AND 10296 10295 10294; G2 XOR 10294 23250 23251; G2 XOR 23314 23251 2330; G2 XOR 16950 23251 10292;
  G2 XOR 2330 16951 23126; G2 XOR 2268 16660 23378; G2 XOR 23378 23251 10293; G2 AND 10293 10292 10291;
  G2 XOR 10291 23251 23252; G2 XOR 23315 23252 2329; G2 XOR 23379 23252 10290; G2 XOR 16951 23252 10289;
  G2 AND 10290 10289 10288; G2 XOR 10288 23252 23253; G2 XOR 23380 23253 10287; G2 XOR 23316 23253 2328;
  G2 XOR 16952 23253 10286; G2 AND 10287 10286 10285; G2 XOR 10285 23253 23254; G2 XOR 16953 23254 10283;
  G2 XOR 23317 23254 2327; G2 XOR 2329 16952 23127; G2 XOR 2328 16953 23128; G2 XOR 2327 16954 23129;
  G2 XOR 2265 16660 23381; G2 XOR 23381 23254 10284; G2 AND 10284 10283 10282; G2 XOR 10282 23254 23255;
  G2 XOR 23318 23255 2326; G2 XOR 16954 23255 10280; G2 XOR 23382 23255 10281; G2 AND 10281 10280 10279;
  G2 XOR 10279 23255 23256; G2 XOR 23319 23256 2325; G2 XOR 16955 23256 10277; G2 XOR 2326 16955 23130;
  G2 XOR 2325 16956 23131; G2 XOR 2260 16660 23386; G2 XOR 2261 16660 23385; G2 XOR 2263 16660 23383;
  G2 XOR 23383 23256 10278; G2 AND 10278 10277 10276; G2 XOR 10276 23256 23257; G2 XOR 23320 23257 2324;
  G2 XOR 16956 23257 10274; G2 XOR 2324 16957 23132; G2 XOR 2262 16660 23384; G2 XOR 23384 23257 10275;
  G2 AND 10275 10274 10273; G2 XOR 10273 23257 23258; G2 XOR 23321 23258 2323; G2 XOR 23385 23258 10272;
  G2 XOR 2323 16958 23133; G2 XOR 2259 16660 23387; G2 XOR 2254 16660 23392; G2 XOR 2255 16660 23391;
  G2 XOR 2257 16660 23389; G2 XOR 2256 16660 23390; G2 XOR 2253 16660 23393; G2 XOR 2248 16660 23398;
  G2 XOR 2249 16660 23397; G2 XOR 2251 16660 23395; G2 XOR 2250 16660 23396; G2 XOR 2247 16660 23399;
  G2 XOR 2242 16660 23404; G2 XOR 2243 16660 23403; G2 XOR 2245 16660 23401; G2 XOR 2244 16660 23402;
  G2 XOR 2241 16660 23405; G2 XOR 2236 16660 23410; G2 XOR 2237 16660 23409; G2 XOR 2239 16660 23407;
  G2 XOR 2238 16660 23408; G2 XOR 2235 16660 23411; G2 XOR 2230 16660 23416; G2 XOR 2231 16660 23415;
  G2 XOR 2233 16660 23413; G2 XOR 2232 16660 23414; G2 XOR 2229 16660 23417; G2 XOR 2224 16660 23422;
  G2 XOR 2225 16660 23421; G2 XOR 2227 16660 23419; G2 XOR 2226 16660 23420; G2 XOR 2223 16660 23423;
  G2 AND 16660 4535 17544; G2 XOR 16957 23258 10271; G2 AND 10272 10271 10270; G2 XOR 10270 23258 23259;
  G2 XOR 23386 23259 10269; G2 XOR 23322 23259 2322; G2 XOR 16958 23259 10268; G2 AND 10269 10268 10267;
  G2 XOR 10267 23259 23260; G2 XOR 16959 23260 10265; G2 XOR 23387 23260 10266; G2 AND 10266 10265 10264;
  G2 XOR 10264 23260 23261; G2 XOR 23324 23261 2320; G2 XOR 16960 23261 10262; G2 XOR 23388 23261 10263;
  G2 AND 10263 10262 10261; G2 XOR 23323 23260 2321; G2 XOR 10261 23261 23262; G2 XOR 23389 23262 10260;
  G2 XOR 16961 23262 10259; G2 XOR 23325 23262 2319; G2 AND 10260 10259 10258; G2 XOR 10258 23262 23263;
  G2 XOR 23326 23263 2318; G2 XOR 16962 23263 10256; G2 XOR 23390 23263 10257; G2 AND 10257 10256 10255;
  G2 XOR 10255 23263 23264; G2 XOR 23327 23264 2317; G2 XOR 23391 23264 10254; G2 XOR 16963 23264 10253;
  G2 AND 10254 10253 10252; G2 XOR 10252 23264 23265; G2 XOR 23328 23265 2316; G2 XOR 16964 23265 10250;
  G2 XOR 23392 23265 10251; G2 AND 10251 10250 10249; G2 XOR 10249 23265 23266; G2 XOR 23393 23266 10248;
  G2 XOR 16965 23266 10247; G2 AND 10248 10247 10246; G2 XOR 10246 23266 23267; G2 XOR 16966 23267 10244;
  G2 XOR 23394 23267 10245; G2 AND 10245 10244 10243; G2 XOR 10243 23267 23268; G2 XOR 23395 23268 10242;
  G2 XOR 16967 23268 10241; G2 AND 10242 10241 10240; G2 XOR 10240 23268 23269; G2 XOR 16968 23269 10238;
  G2 XOR 23332 23269 2312; G2 XOR 23331 23268 2313; G2 XOR 23396 23269 10239; G2 AND 10239 10238 10237;
  G2 XOR 10237 23269 23270; G2 XOR 23397 23270 10236; G2 XOR 16969 23270 10235; G2 XOR 23333 23270 2311;
  G2 AND 10236 10235 10234; G2 XOR 10234 23270 23271; G2 XOR 16970 23271 10232; G2 XOR 23398 23271 10233;
  G2 AND 10233 10232 10231; G2 XOR 23334 23271 2310; G2 XOR 10231 23271 23272; G2 XOR 16971 23272 10229;
  G2 XOR 23399 23272 10230; G2 XOR 23335 23272 2309; G2 AND 10230 10229 10228; G2 XOR 10228 23272 23273;
  G2 XOR 23336 23273 2308; G2 XOR 23400 23273 10227; G2 XOR 16972 23273 10226; G2 AND 10227 10226 10225;
  G2 XOR 23330 23267 2314; G2 XOR 2322 16959 23134; G2 XOR 2321 16960 23135; G2 XOR 2320 16961 23136;
  G2 XOR 2319 16962 23137; G2 XOR 2318 16963 23138; G2 XOR 2317 16964 23139; G2 XOR 2316 16965 23140;
  G2 XOR 2314 16967 23142; G2 XOR 2313 16968 23143; G2 XOR 2312 16969 23144; G2 XOR 2311 16970 23145;
  G2 XOR 2310 16971 23146; G2 XOR 2309 16972 23147; G2 XOR 2308 16973 23148; G2 XOR 10225 23273 23274;
  G2 XOR 23337 23274 2307; G2 XOR 23401 23274 10224; G2 XOR 16973 23274 10223; G2 AND 10224 10223 10222;
  G2 XOR 10222 23274 23275; G2 XOR 23338 23275 2306; G2 XOR 16974 23275 10220; G2 XOR 2307 16974 23149;
  G2 XOR 2306 16975 23150; G2 XOR 23402 23275 10221; G2 AND 10221 10220 10219; G2 XOR 10219 23275 23276;
  G2 XOR 23339 23276 2305; G2 XOR 23403 23276 10218; G2 XOR 2305 16976 23151; G2 XOR 16975 23276 10217;
  G2 AND 10218 10217 10216; G2 XOR 10216 23276 23277; G2 XOR 23404 23277 10215; G2 XOR 23340 23277 2304;
  G2 XOR 16976 23277 10214; G2 AND 10215 10214 10213; G2 XOR 10213 23277 23278; G2 XOR 16977 23278 10211;
  G2 XOR 23405 23278 10212; G2 XOR 2304 16977 23152; G2 XOR 23341 23278 2303; G2 XOR 2303 16978 23153;
  G2 AND 10212 10211 10210; G2 XOR 10210 23278 23279; G2 XOR 23406 23279 10209; G2 XOR 23342 23279 2302;
  G2 XOR 16978 23279 10208; G2 AND 10209 10208 10207; G2 XOR 2302 16979 23154; G2 XOR 10207 23279 23280;
  G2 XOR 23343 23280 2301; G2 XOR 23407 23280 10206; G2 XOR 2301 16980 23155; G2 XOR 16979 23280 10205;
  G2 AND 10206 10205 10204; G2 XOR 10204 23280 23281; G2 XOR 16980 23281 10202; G2 XOR 23344 23281 2300;
  G2 XOR 2300 16981 23156; G2 XOR 23408 23281 10203; G2 AND 10203 10202 10201; G2 XOR 10201 23281 23282;
  G2 XOR 16981 23282 10199; G2 XOR 23345 23282 2299; G2 XOR 2299 16982 23157; G2 XOR 23409 23282 10200;
  G2 AND 10200 10199 10198; G2 XOR 10198 23282 23283; G2 XOR 23410 23283 10197; G2 XOR 23346 23283 2298;
  G2 XOR 16982 23283 10196; G2 AND 10197 10196 10195; G2 XOR 10195 23283 23284; G2 XOR 23347 23284 2297;
  G2 XOR 16983 23284 10193; G2 XOR 23411 23284 10194; G2 AND 10194 10193 10192; G2 XOR 10192 23284 23285;
  G2 XOR 23412 23285 10191; G2 XOR 23348 23285 2296; G2 XOR 16984 23285 10190; G2 XOR 2298 16983 23158;
  G2 XOR 2297 16984 23159; G2 XOR 2296 16985 23160; G2 AND 10191 10190 10189; G2 XOR 10189 23285 23286;
  G2 XOR 23413 23286 10188; G2 XOR 16985 23286 10187; G2 AND 10188 10187 10186; G2 XOR 10186 23286 23287;
  G2 XOR 23414 23287 10185; G2 XOR 23350 23287 2294; G2 XOR 16986 23287 10184; G2 XOR 2294 16987 23162;
  G2 AND 10185 10184 10183; G2 XOR 10183 23287 23288; G2 XOR 16987 23288 10181; G2 XOR 23415 23288 10182;
  G2 AND 10182 10181 10180; G2 XOR 10180 23288 23289; G2 XOR 23416 23289 10179; G2 XOR 23352 23289 2292;
  G2 XOR 2292 16989 23164; G2 XOR 23351 23288 2293; G2 XOR 2293 16988 23163; G2 XOR 23349 23286 2295;
  G2 XOR 2295 16986 23161; G2 XOR 16988 23289 10178; G2 AND 10179 10178 10177; G2 XOR 10177 23289 23290;
  G2 XOR 23353 23290 2291; G2 XOR 16989 23290 10175; G2 XOR 23417 23290 10176; G2 AND 10176 10175 10174;
  G2 XOR 10174 23290 23291; G2 XOR 16990 23291 10172; G2 XOR 23418 23291 10173; G2 AND 10173 10172 10171;
  G2 XOR 10171 23291 23292; G2 XOR 16991 23292 10169; G2 XOR 23419 23292 10170; G2 XOR 23354 23291 2290;
  G2 XOR 2291 16990 23165; G2 XOR 2290 16991 23166; G2 XOR 23355 23292 2289; G2 XOR 2289 16992 23167;
  G2 AND 10170 10169 10168; G2 XOR 10168 23292 23293; G2 XOR 23420 23293 10167; G2 XOR 23356 23293 2288;
  G2 XOR 16992 23293 10166; G2 AND 10167 10166 10165; G2 XOR 10165 23293 23294; G2 XOR 23357 23294 2287;
  G2 XOR 23421 23294 10164; G2 XOR 2288 16993 23168; G2 XOR 2287 16994 23169; G2 XOR 16993 23294 10163;
  G2 AND 10164 10163 10162; G2 XOR 10162 23294 23295; G2 XOR 23422 23295 10161; G2 XOR 23358 23295 2286;
  G2 XOR 2286 16995 23170; G2 XOR 16994 23295 10160; G2 AND 10161 10160 10159; G2 XOR 10159 23295 23296;
  G2 XOR 23359 23296 2285; G2 XOR 23423 23296 10158; G2 XOR 2285 16996 23171; G2 XOR 16995 23296 10157;
  G2 AND 10158 10157 10156; G2 XOR 10156 23296 23297; G2 XOR 16996 23297 10154; G2 XOR 23360 23297 2284;
  G2 XOR 2284 16997 23172; G2 XOR 23329 23266 2315; G2 XOR 2315 16966 23141; G2 XOR 2222 16660 23424;
  G2 XOR 23424 23297 10155; G2 AND 10155 10154 10153; G2 XOR 10153 23297 23298; G2 XOR 16997 23298 10151;
  G2 XOR 23361 23298 2283; G2 XOR 2283 16998 23173; G2 XOR 23425 23298 10152; G2 AND 10152 10151 10150;
  G2 XOR 10150 23298 23299; G2 XOR 16998 23299 10148; G2 XOR 23362 23299 2282; G2 XOR 2282 16999 23174;
  G2 XOR 23426 23299 10149; G2 AND 10149 10148 10147; G2 XOR 10147 23299 23300; G2 XOR 16999 23300 10145;
  G2 XOR 23427 23300 10146; G2 AND 10146 10145 10144; G2 XOR 10144 23300 23301; G2 XOR 17000 23301 10142;
  G2 XOR 23363 23300 2281; G2 XOR 2281 17000 23175; G2 XOR 23428 23301 10143; G2 AND 10143 10142 10141;
  G2 XOR 10141 23301 23302; G2 XOR 17001 23302 10139; G2 XOR 23429 23302 10140; G2 XOR 23365 23302 2279;
  G2 AND 10140 10139 10138; G2 XOR 10138 23302 23303; G2 XOR 17002 23303 10136; G2 XOR 23366 23303 2278;
  G2 XOR 2278 17003 23178; G2 XOR 2279 17002 23177; G2 XOR 23430 23303 10137; G2 AND 10137 10136 10135;
  G2 XOR 10135 23303 23304; G2 XOR 23367 23304 2277; G2 XOR 23431 23304 10134; G2 XOR 17003 23304 10133;
  G2 XOR 2277 17004 23179; G2 XOR 23364 23301 2280; G2 XOR 2280 17001 23176; G2 AND 10134 10133 10132;
  G2 XOR 10132 23304 23305; G2 XOR 17004 23305 10130; G2 XOR 23368 23305 2276; G2 XOR 2276 17005 23180;
  G2 XOR 23432 23305 10131; G2 AND 10131 10130 10129; G2 XOR 10129 23305 23306; G2 XOR 23433 23306 10128;
  G2 XOR 17005 23306 10127; G2 AND 10128 10127 10126; G2 XOR 23369 23306 2275; G2 XOR 2275 17006 23181;
  G2 XOR 10126 23306 23307; G2 XOR 23370 23307 2274; G2 XOR 23434 23307 10125; G2 XOR 17006 23307 10124;
  G2 AND 10125 10124 10123; G2 XOR 10123 23307 23308; G2 XOR 17007 23308 10121; G2 XOR 23435 23308 10122;
  G2 AND 10122 10121 10120; G2 XOR 2274 17007 23182; G2 XOR 23371 23308 2273; G2 XOR 2273 17008 23183;
  G2 XOR 10120 23308 23309; G2 XOR 17008 23309 10118; G2 XOR 23372 23309 2272; G2 XOR 2272 17009 23184;
  G2 XOR 23436 23309 10119; G2 AND 10119 10118 10117; G2 XOR 10117 23309 23310; G2 XOR 23373 23310 163;
  G1 INV 163 16659; G2 XOR 2282 16659 23238; G2 XOR 2274 16659 23246; G2 XOR 2280 16659 23240;
  G2 XOR 2333 16659 23187; G2 XOR 2327 16659 23193; G2 XOR 2321 16659 23199; G2 XOR 2315 16659 23205;
  G2 XOR 2309 16659 23211; G2 XOR 2303 16659 23217; G2 XOR 2297 16659 23223; G2 XOR 2291 16659 23229;
  G2 XOR 2278 16659 23242; G2 XOR 2277 16659 23243; G2 XOR 2273 16659 23247; G2 XOR 2281 16659 23239;
  G2 XOR 2283 16659 23237; G2 XOR 2276 16659 23244; G2 XOR 16848 16659 23185; G2 AND 23185 16946 23059;
  G2 XOR 23122 23059 2396; G2 XOR 16947 23059 10115; G2 XOR 2396 16948 22934; G2 XOR 2334 16659 23186;
  G2 XOR 23186 23059 10116; G2 AND 10116 10115 10114; G2 XOR 10114 23059 23060; G2 XOR 23123 23060 2395;
  G2 XOR 23187 23060 10113; G2 XOR 16948 23060 10112; G2 AND 10113 10112 10111; G2 XOR 10111 23060 23061;
  G2 XOR 23124 23061 2394; G2 XOR 16949 23061 10109; G2 XOR 2395 16949 22935; G2 XOR 2394 16950 22936;
  G2 XOR 2329 16659 23191; G2 XOR 2330 16659 23190; G2 XOR 2332 16659 23188; G2 XOR 23188 23061 10110;
  G2 AND 10110 10109 10108; G2 XOR 10108 23061 23062; G2 XOR 23125 23062 2393; G2 XOR 16950 23062 10106;
  G2 XOR 2393 16951 22937; G2 XOR 2331 16659 23189; G2 XOR 23189 23062 10107; G2 AND 10107 10106 10105;
  G2 XOR 10105 23062 23063; G2 XOR 23190 23063 10104; G2 XOR 23126 23063 2392; G2 XOR 16951 23063 10103;
  G2 AND 10104 10103 10102; G2 XOR 10102 23063 23064; G2 XOR 16952 23064 10100; G2 XOR 23191 23064 10101;
  G2 AND 10101 10100 10099; G2 XOR 10099 23064 23065; G2 XOR 23128 23065 2390; G2 XOR 16953 23065 10097;
  G2 XOR 2392 16952 22938; G2 XOR 2390 16954 22940; G2 XOR 2328 16659 23192; G2 XOR 23192 23065 10098;
  G2 AND 10098 10097 10096; G2 XOR 10096 23065 23066; G2 XOR 23129 23066 2389; G2 XOR 23193 23066 10095;
  G2 XOR 16954 23066 10094; G2 XOR 2389 16955 22941; G2 XOR 2323 16659 23197; G2 XOR 2324 16659 23196;
  G2 XOR 2326 16659 23194; G2 XOR 2325 16659 23195; G2 XOR 2322 16659 23198; G2 XOR 2317 16659 23203;
  G2 XOR 2318 16659 23202; G2 XOR 2320 16659 23200; G2 XOR 2319 16659 23201; G2 XOR 2316 16659 23204;
  G2 XOR 2311 16659 23209; G2 XOR 2312 16659 23208; G2 XOR 2314 16659 23206; G2 XOR 2313 16659 23207;
  G2 XOR 2310 16659 23210; G2 XOR 2305 16659 23215; G2 XOR 2306 16659 23214; G2 XOR 2308 16659 23212;
  G2 XOR 2307 16659 23213; G2 XOR 2304 16659 23216; G2 XOR 2299 16659 23221; G2 XOR 2300 16659 23220;
  G2 XOR 2302 16659 23218; G2 XOR 2301 16659 23219; G2 XOR 2298 16659 23222; G2 XOR 2293 16659 23227;
  G2 XOR 2294 16659 23226; G2 XOR 2296 16659 23224; G2 XOR 2295 16659 23225; G2 XOR 2292 16659 23228;
  G2 XOR 2287 16659 23233; G2 XOR 2288 16659 23232; G2 XOR 2290 16659 23230; G2 XOR 2289 16659 23231;
  G2 XOR 2286 16659 23234; G2 XOR 2285 16659 23235; G2 AND 16659 4535 17543; G2 AND 10095 10094 10093;
  G2 XOR 10093 23066 23067; G2 XOR 23130 23067 2388; G2 XOR 16955 23067 10091; G2 XOR 23194 23067 10092;
  G2 AND 10092 10091 10090; G2 XOR 10090 23067 23068; G2 XOR 23131 23068 2387; G2 XOR 23195 23068 10089;
  G2 XOR 2388 16956 22942; G2 XOR 2387 16957 22943; G2 XOR 16956 23068 10088; G2 AND 10089 10088 10087;
  G2 XOR 10087 23068 23069; G2 XOR 23196 23069 10086; G2 XOR 23132 23069 2386; G2 XOR 16957 23069 10085;
  G2 AND 10086 10085 10084; G2 XOR 10084 23069 23070; G2 XOR 16958 23070 10082; G2 XOR 23197 23070 10083;
  G2 AND 10083 10082 10081; G2 XOR 10081 23070 23071; G2 XOR 23134 23071 2384; G2 XOR 16959 23071 10079;
  G2 XOR 23198 23071 10080; G2 AND 10080 10079 10078; G2 XOR 10078 23071 23072; G2 XOR 23135 23072 2383;
  G2 XOR 23199 23072 10077; G2 XOR 16960 23072 10076; G2 XOR 2386 16958 22944; G2 XOR 2384 16960 22946;
  G2 XOR 2383 16961 22947; G2 AND 10077 10076 10075; G2 XOR 10075 23072 23073; G2 XOR 23136 23073 2382;
  G2 XOR 16961 23073 10073; G2 XOR 23200 23073 10074; G2 AND 10074 10073 10072; G2 XOR 10072 23073 23074;
  G2 XOR 23137 23074 2381; G2 XOR 23201 23074 10071; G2 XOR 16962 23074 10070; G2 AND 10071 10070 10069;
  G2 XOR 10069 23074 23075; G2 XOR 23202 23075 10068; G2 XOR 23138 23075 2380; G2 XOR 16963 23075 10067;
  G2 AND 10068 10067 10066; G2 XOR 10066 23075 23076; G2 XOR 16964 23076 10064; G2 XOR 23203 23076 10065;
  G2 AND 10065 10064 10063; G2 XOR 10063 23076 23077; G2 XOR 23140 23077 2378; G2 XOR 16965 23077 10061;
  G2 XOR 23204 23077 10062; G2 AND 10062 10061 10060; G2 XOR 10060 23077 23078; G2 XOR 23141 23078 2377;
  G2 XOR 23205 23078 10059; G2 XOR 16966 23078 10058; G2 XOR 23139 23076 2379; G2 AND 10059 10058 10057;
  G2 XOR 10057 23078 23079; G2 XOR 16967 23079 10055; G2 XOR 23206 23079 10056; G2 AND 10056 10055 10054;
  G2 XOR 10054 23079 23080; G2 XOR 23143 23080 2375; G2 XOR 23207 23080 10053; G2 XOR 23142 23079 2376;
  G2 XOR 2382 16962 22948; G2 XOR 2381 16963 22949; G2 XOR 2380 16964 22950; G2 XOR 2379 16965 22951;
  G2 XOR 2378 16966 22952; G2 XOR 2377 16967 22953; G2 XOR 2376 16968 22954; G2 XOR 2375 16969 22955;
  G2 XOR 16968 23080 10052; G2 AND 10053 10052 10051; G2 XOR 10051 23080 23081; G2 XOR 23208 23081 10050;
  G2 XOR 23144 23081 2374; G2 XOR 16969 23081 10049; G2 AND 10050 10049 10048; G2 XOR 10048 23081 23082;
  G2 XOR 16970 23082 10046; G2 XOR 23209 23082 10047; G2 XOR 2374 16970 22956; G2 AND 10047 10046 10045;
  G2 XOR 10045 23082 23083; G2 XOR 23146 23083 2372; G2 XOR 16971 23083 10043; G2 XOR 23210 23083 10044;
  G2 AND 10044 10043 10042; G2 XOR 10042 23083 23084; G2 XOR 23147 23084 2371; G2 XOR 23211 23084 10041;
  G2 XOR 16972 23084 10040; G2 AND 10041 10040 10039; G2 XOR 10039 23084 23085; G2 XOR 23212 23085 10038;
  G2 XOR 16973 23085 10037; G2 XOR 23148 23085 2370; G2 XOR 2372 16972 22958; G2 XOR 2371 16973 22959;
  G2 XOR 2370 16974 22960; G2 AND 10038 10037 10036; G2 XOR 10036 23085 23086; G2 XOR 16974 23086 10034;
  G2 XOR 23213 23086 10035; G2 XOR 23149 23086 2369; G2 AND 10035 10034 10033; G2 XOR 10033 23086 23087;
  G2 XOR 23214 23087 10032; G2 XOR 16975 23087 10031; G2 AND 10032 10031 10030; G2 XOR 23150 23087 2368;
  G2 XOR 10030 23087 23088; G2 XOR 23215 23088 10029; G2 XOR 23151 23088 2367; G2 XOR 16976 23088 10028;
  G2 AND 10029 10028 10027; G2 XOR 10027 23088 23089; G2 XOR 23216 23089 10026; G2 XOR 23152 23089 2366;
  G2 XOR 16977 23089 10025; G2 XOR 2369 16975 22961; G2 XOR 2368 16976 22962; G2 XOR 2367 16977 22963;
  G2 XOR 2366 16978 22964; G2 AND 10026 10025 10024; G2 XOR 10024 23089 23090; G2 XOR 16978 23090 10022;
  G2 XOR 23217 23090 10023; G2 AND 10023 10022 10021; G2 XOR 10021 23090 23091; G2 XOR 23218 23091 10020;
  G2 XOR 23154 23091 2364; G2 XOR 16979 23091 10019; G2 AND 10020 10019 10018; G2 XOR 10018 23091 23092;
  G2 XOR 23219 23092 10017; G2 XOR 23155 23092 2363; G2 XOR 23153 23090 2365; G2 XOR 2365 16979 22965;
  G2 XOR 2364 16980 22966; G2 XOR 2363 16981 22967; G2 XOR 16980 23092 10016; G2 AND 10017 10016 10015;
  G2 XOR 10015 23092 23093; G2 XOR 23220 23093 10014; G2 XOR 16981 23093 10013; G2 AND 10014 10013 10012;
  G2 XOR 10012 23093 23094; G2 XOR 23157 23094 2361; G2 XOR 23156 23093 2362; G2 XOR 16982 23094 10010;
  G2 XOR 23221 23094 10011; G2 AND 10011 10010 10009; G2 XOR 10009 23094 23095; G2 XOR 23222 23095 10008;
  G2 XOR 23158 23095 2360; G2 XOR 2362 16982 22968; G2 XOR 2361 16983 22969; G2 XOR 2360 16984 22970;
  G2 XOR 16983 23095 10007; G2 AND 10008 10007 10006; G2 XOR 10006 23095 23096; G2 XOR 23223 23096 10005;
  G2 XOR 16984 23096 10004; G2 AND 10005 10004 10003; G2 XOR 10003 23096 23097; G2 XOR 16985 23097 10001;
  G2 XOR 23224 23097 10002; G2 XOR 23160 23097 2358; G2 AND 10002 10001 10000; G2 XOR 10000 23097 23098;
  G2 XOR 16986 23098 9998; G2 XOR 23161 23098 2357; G2 XOR 23225 23098 9999; G2 AND 9999 9998 9997;
  G2 XOR 9997 23098 23099; G2 XOR 16987 23099 9995; G2 XOR 23159 23096 2359; G2 XOR 23226 23099 9996;
  G2 AND 9996 9995 9994; G2 XOR 23162 23099 2356; G2 XOR 2359 16985 22971; G2 XOR 2358 16986 22972;
  G2 XOR 2357 16987 22973; G2 XOR 2356 16988 22974; G2 XOR 9994 23099 23100; G2 XOR 16988 23100 9992;
  G2 XOR 23163 23100 2355; G2 XOR 23227 23100 9993; G2 AND 9993 9992 9991; G2 XOR 9991 23100 23101;
  G2 XOR 23164 23101 2354; G2 XOR 16989 23101 9989; G2 XOR 23228 23101 9990; G2 AND 9990 9989 9988;
  G2 XOR 9988 23101 23102; G2 XOR 23165 23102 2353; G2 XOR 23229 23102 9987; G2 XOR 16990 23102 9986;
  G2 AND 9987 9986 9985; G2 XOR 9985 23102 23103; G2 XOR 16991 23103 9983; G2 XOR 23166 23103 2352;
  G2 XOR 23230 23103 9984; G2 AND 9984 9983 9982; G2 XOR 9982 23103 23104; G2 XOR 23167 23104 2351;
  G2 XOR 23231 23104 9981; G2 XOR 16992 23104 9980; G2 AND 9981 9980 9979; G2 XOR 2355 16989 22975;
  G2 XOR 2354 16990 22976; G2 XOR 2353 16991 22977; G2 XOR 2352 16992 22978; G2 XOR 2351 16993 22979;
  G2 XOR 9979 23104 23105; G2 XOR 16993 23105 9977; G2 XOR 23232 23105 9978; G2 AND 9978 9977 9976;
  G2 XOR 9976 23105 23106; G2 XOR 16994 23106 9974; G2 XOR 23169 23106 2349; G2 XOR 23233 23106 9975;
  G2 AND 9975 9974 9973; G2 XOR 9973 23106 23107; G2 XOR 16995 23107 9971; G2 XOR 23234 23107 9972;
  G2 AND 9972 9971 9970; G2 XOR 9970 23107 23108; G2 XOR 23168 23105 2350; G2 XOR 23170 23107 2348;
  G2 XOR 23171 23108 2347; G2 XOR 23235 23108 9969; G2 XOR 16996 23108 9968; G2 AND 9969 9968 9967;
  G2 XOR 9967 23108 23109; G2 XOR 23172 23109 2346; G2 XOR 2350 16994 22980; G2 XOR 2349 16995 22981;
  G2 XOR 2348 16996 22982; G2 XOR 2347 16997 22983; G2 XOR 2346 16998 22984; G2 XOR 16997 23109 9965;
  G2 XOR 23127 23064 2391; G2 XOR 2391 16953 22939; G2 XOR 2275 16659 23245; G2 XOR 2279 16659 23241;
  G2 XOR 23133 23070 2385; G2 XOR 2385 16959 22945; G2 XOR 23145 23082 2373; G2 XOR 2373 16971 22957;
  G2 XOR 2284 16659 23236; G2 XOR 23236 23109 9966; G2 AND 9966 9965 9964; G2 XOR 9964 23109 23110;
  G2 XOR 23237 23110 9963; G2 XOR 16998 23110 9962; G2 AND 9963 9962 9961; G2 XOR 9961 23110 23111;
  G2 XOR 23238 23111 9960; G2 XOR 23174 23111 2344; G2 XOR 16999 23111 9959; G2 AND 9960 9959 9958;
  G2 XOR 9958 23111 23112; G2 XOR 23239 23112 9957; G2 XOR 17000 23112 9956; G2 AND 9957 9956 9955;
  G2 XOR 9955 23112 23113; G2 XOR 23176 23113 2342; G2 XOR 2342 17002 22988; G2 XOR 2344 17000 22986;
  G2 XOR 23175 23112 2343; G2 XOR 2343 17001 22987; G2 XOR 23173 23110 2345; G2 XOR 2345 16999 22985;
  G2 XOR 23240 23113 9954; G2 XOR 17001 23113 9953; G2 AND 9954 9953 9952; G2 XOR 9952 23113 23114;
  G2 XOR 23241 23114 9951; G2 XOR 23177 23114 2341; G2 XOR 17002 23114 9950; G2 XOR 2341 17003 22989;
  G2 AND 9951 9950 9949; G2 XOR 9949 23114 23115; G2 XOR 23178 23115 2340; G2 XOR 17003 23115 9947;
  G2 XOR 2340 17004 22990; G2 XOR 23242 23115 9948; G2 AND 9948 9947 9946; G2 XOR 9946 23115 23116;
  G2 XOR 23179 23116 2339; G2 XOR 23243 23116 9945; G2 XOR 17004 23116 9944; G2 AND 9945 9944 9943;
  G2 XOR 9943 23116 23117; G2 XOR 17005 23117 9941; G2 XOR 23244 23117 9942; G2 AND 9942 9941 9940;
  G2 XOR 2339 17005 22991; G2 XOR 23180 23117 2338; G2 XOR 2338 17006 22992; G2 XOR 9940 23117 23118;
  G2 XOR 17006 23118 9938; G2 XOR 23245 23118 9939; G2 AND 9939 9938 9937; G2 XOR 9937 23118 23119;
  G2 XOR 23182 23119 2336; G2 XOR 23246 23119 9936; G2 XOR 2336 17008 22994; G2 XOR 23181 23118 2337;
  G2 XOR 2337 17007 22993; G2 XOR 17007 23119 9935; G2 AND 9936 9935 9934; G2 XOR 9934 23119 23120;
  G2 XOR 23183 23120 2335; G2 XOR 2335 17009 22995; G2 XOR 23247 23120 9933; G2 XOR 17008 23120 9932;
  G2 AND 9933 9932 9931; G2 XOR 9931 23120 23121; G2 XOR 23184 23121 164; G1 INV 164 16658;
  G2 XOR 2339 16658 23055; G2 XOR 2338 16658 23056; G2 XOR 2395 16658 22999; G2 XOR 2389 16658 23005;
  G2 XOR 2383 16658 23011; G2 XOR 2377 16658 23017; G2 XOR 2371 16658 23023; G2 XOR 2365 16658 23029;
  G2 XOR 2359 16658 23035; G2 XOR 2353 16658 23041; G2 XOR 2337 16658 23057; G2 XOR 2345 16658 23049;
  G2 XOR 2340 16658 23054; G2 XOR 2341 16658 23053; G2 XOR 2336 16658 23058; G2 XOR 2397 16658 22997;
  G2 XOR 16847 16658 22996; G2 XOR 2396 16658 22998; G2 XOR 2391 16658 23003; G2 XOR 2392 16658 23002;
  G2 XOR 2394 16658 23000; G2 XOR 2393 16658 23001; G2 XOR 2390 16658 23004; G2 XOR 2385 16658 23009;
  G2 XOR 2386 16658 23008; G2 XOR 2388 16658 23006; G2 XOR 2387 16658 23007; G2 XOR 2384 16658 23010;
  G2 XOR 2379 16658 23015; G2 XOR 2380 16658 23014; G2 XOR 2382 16658 23012; G2 XOR 2381 16658 23013;
  G2 XOR 2378 16658 23016; G2 XOR 2373 16658 23021; G2 XOR 2374 16658 23020; G2 XOR 2376 16658 23018;
  G2 XOR 2375 16658 23019; G2 XOR 2372 16658 23022; G2 XOR 2367 16658 23027; G2 XOR 2368 16658 23026;
  G2 XOR 2370 16658 23024; G2 XOR 2369 16658 23025; G2 XOR 2366 16658 23028; G2 XOR 2361 16658 23033;
  G2 XOR 2362 16658 23032; G2 XOR 2364 16658 23030; G2 XOR 2363 16658 23031; G2 XOR 2360 16658 23034;
  G2 XOR 2355 16658 23039; G2 XOR 2356 16658 23038; G2 XOR 2358 16658 23036; G2 XOR 2357 16658 23037;
  G2 XOR 2354 16658 23040; G2 XOR 2349 16658 23045; G2 XOR 2350 16658 23044; G2 XOR 2352 16658 23042;
  G2 XOR 2351 16658 23043; G2 XOR 2348 16658 23046; G2 AND 16658 4535 17542; G2 XOR 2346 16658 23048;
  G2 XOR 2344 16658 23050; G2 XOR 2342 16658 23052; G2 AND 22996 16946 22870; G2 XOR 22933 22870 2459;
  G2 XOR 16947 22870 9929; G2 XOR 22997 22870 9930; G2 AND 9930 9929 9928; G2 XOR 9928 22870 22871;
  G2 XOR 22934 22871 2458; G2 XOR 22998 22871 9927; G2 XOR 16948 22871 9926; G2 AND 9927 9926 9925;
  G2 XOR 9925 22871 22872; G2 XOR 22935 22872 2457; G2 XOR 16949 22872 9923; G2 XOR 22999 22872 9924;
  G2 AND 9924 9923 9922; G2 XOR 9922 22872 22873; G2 XOR 16950 22873 9920; G2 XOR 22936 22873 2456;
  G2 XOR 23000 22873 9921; G2 AND 9921 9920 9919; G2 XOR 9919 22873 22874; G2 XOR 23001 22874 9918;
  G2 XOR 22937 22874 2455; G2 XOR 16951 22874 9917; G2 AND 9918 9917 9916; G2 XOR 9916 22874 22875;
  G2 XOR 16952 22875 9914; G2 XOR 23002 22875 9915; G2 AND 9915 9914 9913; G2 XOR 9913 22875 22876;
  G2 XOR 22939 22876 2453; G2 XOR 16953 22876 9911; G2 XOR 23003 22876 9912; G2 AND 9912 9911 9910;
  G2 XOR 22938 22875 2454; G2 XOR 9910 22876 22877; G2 XOR 22940 22877 2452; G2 XOR 23004 22877 9909;
  G2 XOR 16954 22877 9908; G2 AND 9909 9908 9907; G2 XOR 9907 22877 22878; G2 XOR 22941 22878 2451;
  G2 XOR 16955 22878 9905; G2 XOR 23005 22878 9906; G2 AND 9906 9905 9904; G2 XOR 9904 22878 22879;
  G2 XOR 22942 22879 2450; G2 XOR 23006 22879 9903; G2 XOR 16956 22879 9902; G2 AND 9903 9902 9901;
  G2 XOR 9901 22879 22880; G2 XOR 23007 22880 9900; G2 XOR 22943 22880 2449; G2 XOR 16957 22880 9899;
  G2 AND 9900 9899 9898; G2 XOR 9898 22880 22881; G2 XOR 16958 22881 9896; G2 XOR 23008 22881 9897;
  G2 AND 9897 9896 9895; G2 XOR 9895 22881 22882; G2 XOR 22945 22882 2447; G2 XOR 16959 22882 9893;
  G2 XOR 23009 22882 9894; G2 AND 9894 9893 9892; G2 XOR 22944 22881 2448; G2 XOR 9892 22882 22883;
  G2 XOR 22946 22883 2446; G2 XOR 23010 22883 9891; G2 XOR 16960 22883 9890; G2 AND 9891 9890 9889;
  G2 XOR 9889 22883 22884; G2 XOR 22947 22884 2445; G2 XOR 16961 22884 9887; G2 XOR 23011 22884 9888;
  G2 AND 9888 9887 9886; G2 XOR 9886 22884 22885; G2 XOR 22948 22885 2444; G2 XOR 23012 22885 9885;
  G2 XOR 16962 22885 9884; G2 AND 9885 9884 9883; G2 XOR 9883 22885 22886; G2 XOR 23013 22886 9882;
  G2 XOR 22949 22886 2443; G2 XOR 16963 22886 9881; G2 AND 9882 9881 9880; G2 XOR 9880 22886 22887;
  G2 XOR 16964 22887 9878; G2 XOR 23014 22887 9879; G2 AND 9879 9878 9877; G2 XOR 9877 22887 22888;
  G2 XOR 22951 22888 2441; G2 XOR 16965 22888 9875; G2 XOR 23015 22888 9876; G2 AND 9876 9875 9874;
  G2 XOR 22950 22887 2442; G2 XOR 2459 16948 22745; G2 XOR 2458 16949 22746; G2 XOR 2457 16950 22747;
  G2 XOR 2456 16951 22748; G2 XOR 2455 16952 22749; G2 XOR 2454 16953 22750; G2 XOR 2453 16954 22751;
  G2 XOR 2452 16955 22752; G2 XOR 2451 16956 22753; G2 XOR 2450 16957 22754; G2 XOR 2449 16958 22755;
  G2 XOR 2448 16959 22756; G2 XOR 2447 16960 22757; G2 XOR 2446 16961 22758; G2 XOR 2445 16962 22759;
  G2 XOR 2444 16963 22760; G2 XOR 2443 16964 22761; G2 XOR 2442 16965 22762; G2 XOR 2441 16966 22763;
  G2 XOR 9874 22888 22889; G2 XOR 22952 22889 2440; G2 XOR 23016 22889 9873; G2 XOR 16966 22889 9872;
  G2 AND 9873 9872 9871; G2 XOR 9871 22889 22890; G2 XOR 23017 22890 9870; G2 XOR 22953 22890 2439;
  G2 XOR 2440 16967 22764; G2 XOR 2439 16968 22765; G2 XOR 16967 22890 9869; G2 AND 9870 9869 9868;
  G2 XOR 9868 22890 22891; G2 XOR 16968 22891 9866; G2 XOR 22954 22891 2438; G2 XOR 23018 22891 9867;
  G2 AND 9867 9866 9865; G2 XOR 9865 22891 22892; G2 XOR 22955 22892 2437; G2 XOR 16969 22892 9863;
  G2 XOR 23019 22892 9864; G2 AND 9864 9863 9862; G2 XOR 9862 22892 22893; G2 XOR 22956 22893 2436;
  G2 XOR 16970 22893 9860; G2 XOR 23020 22893 9861; G2 AND 9861 9860 9859; G2 XOR 2438 16969 22766;
  G2 XOR 2437 16970 22767; G2 XOR 2436 16971 22768; G2 XOR 9859 22893 22894; G2 XOR 16971 22894 9857;
  G2 XOR 22957 22894 2435; G2 XOR 23021 22894 9858; G2 AND 9858 9857 9856; G2 XOR 9856 22894 22895;
  G2 XOR 22958 22895 2434; G2 XOR 16972 22895 9854; G2 XOR 23022 22895 9855; G2 AND 9855 9854 9853;
  G2 XOR 9853 22895 22896; G2 XOR 23023 22896 9852; G2 XOR 22959 22896 2433; G2 XOR 16973 22896 9851;
  G2 AND 9852 9851 9850; G2 XOR 9850 22896 22897; G2 XOR 16974 22897 9848; G2 XOR 22960 22897 2432;
  G2 XOR 23024 22897 9849; G2 AND 9849 9848 9847; G2 XOR 9847 22897 22898; G2 XOR 16975 22898 9845;
  G2 XOR 23025 22898 9846; G2 AND 9846 9845 9844; G2 XOR 9844 22898 22899; G2 XOR 22962 22899 2430;
  G2 XOR 23026 22899 9843; G2 XOR 16976 22899 9842; G2 AND 9843 9842 9841; G2 XOR 9841 22899 22900;
  G2 XOR 22963 22900 2429; G2 XOR 23027 22900 9840; G2 XOR 16977 22900 9839; G2 AND 9840 9839 9838;
  G2 XOR 9838 22900 22901; G2 XOR 16978 22901 9836; G2 XOR 23028 22901 9837; G2 AND 9837 9836 9835;
  G2 XOR 9835 22901 22902; G2 XOR 22965 22902 2427; G2 XOR 23029 22902 9834; G2 XOR 22964 22901 2428;
  G2 XOR 16979 22902 9833; G2 AND 9834 9833 9832; G2 XOR 9832 22902 22903; G2 XOR 16980 22903 9830;
  G2 XOR 22966 22903 2426; G2 XOR 23030 22903 9831; G2 AND 9831 9830 9829; G2 XOR 9829 22903 22904;
  G2 XOR 22967 22904 2425; G2 XOR 16981 22904 9827; G2 XOR 23031 22904 9828; G2 AND 9828 9827 9826;
  G2 XOR 9826 22904 22905; G2 XOR 16982 22905 9824; G2 XOR 23032 22905 9825; G2 AND 9825 9824 9823;
  G2 XOR 9823 22905 22906; G2 XOR 22969 22906 2423; G2 XOR 22968 22905 2424; G2 XOR 16983 22906 9821;
  G2 XOR 23033 22906 9822; G2 AND 9822 9821 9820; G2 XOR 2435 16972 22769; G2 XOR 2434 16973 22770;
  G2 XOR 2433 16974 22771; G2 XOR 2432 16975 22772; G2 XOR 2430 16977 22774; G2 XOR 2429 16978 22775;
  G2 XOR 2428 16979 22776; G2 XOR 2427 16980 22777; G2 XOR 2426 16981 22778; G2 XOR 2425 16982 22779;
  G2 XOR 2424 16983 22780; G2 XOR 2423 16984 22781; G2 XOR 9820 22906 22907; G2 XOR 23034 22907 9819;
  G2 XOR 16984 22907 9818; G2 XOR 22970 22907 2422; G2 XOR 2422 16985 22782; G2 XOR 22961 22898 2431;
  G2 XOR 2431 16976 22773; G2 AND 9819 9818 9817; G2 XOR 9817 22907 22908; G2 XOR 23035 22908 9816;
  G2 XOR 22971 22908 2421; G2 XOR 16985 22908 9815; G2 AND 9816 9815 9814; G2 XOR 9814 22908 22909;
  G2 XOR 22972 22909 2420; G2 XOR 23036 22909 9813; G2 XOR 2421 16986 22783; G2 XOR 2420 16987 22784;
  G2 XOR 16986 22909 9812; G2 AND 9813 9812 9811; G2 XOR 9811 22909 22910; G2 XOR 22973 22910 2419;
  G2 XOR 23037 22910 9810; G2 XOR 16987 22910 9809; G2 AND 9810 9809 9808; G2 XOR 9808 22910 22911;
  G2 XOR 22974 22911 2418; G2 XOR 16988 22911 9806; G2 XOR 23038 22911 9807; G2 AND 9807 9806 9805;
  G2 XOR 9805 22911 22912; G2 XOR 22975 22912 2417; G2 XOR 16989 22912 9803; G2 XOR 23039 22912 9804;
  G2 AND 9804 9803 9802; G2 XOR 9802 22912 22913; G2 XOR 22976 22913 2416; G2 XOR 23040 22913 9801;
  G2 XOR 16990 22913 9800; G2 XOR 2419 16988 22785; G2 XOR 2418 16989 22786; G2 XOR 2417 16990 22787;
  G2 XOR 2416 16991 22788; G2 AND 9801 9800 9799; G2 XOR 9799 22913 22914; G2 XOR 23041 22914 9798;
  G2 XOR 22977 22914 2415; G2 XOR 16991 22914 9797; G2 AND 9798 9797 9796; G2 XOR 9796 22914 22915;
  G2 XOR 16992 22915 9794; G2 XOR 22978 22915 2414; G2 XOR 23042 22915 9795; G2 AND 9795 9794 9793;
  G2 XOR 9793 22915 22916; G2 XOR 16993 22916 9791; G2 XOR 23043 22916 9792; G2 AND 9792 9791 9790;
  G2 XOR 22979 22916 2413; G2 XOR 2415 16992 22789; G2 XOR 2414 16993 22790; G2 XOR 2413 16994 22791;
  G2 XOR 9790 22916 22917; G2 XOR 22980 22917 2412; G2 XOR 16994 22917 9788; G2 XOR 23044 22917 9789;
  G2 XOR 2412 16995 22792; G2 AND 9789 9788 9787; G2 XOR 9787 22917 22918; G2 XOR 16995 22918 9785;
  G2 XOR 22981 22918 2411; G2 XOR 2411 16996 22793; G2 XOR 23045 22918 9786; G2 AND 9786 9785 9784;
  G2 XOR 9784 22918 22919; G2 XOR 23046 22919 9783; G2 XOR 16996 22919 9782; G2 AND 9783 9782 9781;
  G2 XOR 9781 22919 22920; G2 XOR 22983 22920 2409; G2 XOR 16997 22920 9779; G2 XOR 2409 16998 22795;
  G2 XOR 22982 22919 2410; G2 XOR 2410 16997 22794; G2 XOR 2343 16658 23051; G2 XOR 2347 16658 23047;
  G2 XOR 23047 22920 9780; G2 AND 9780 9779 9778; G2 XOR 9778 22920 22921; G2 XOR 23048 22921 9777;
  G2 XOR 22984 22921 2408; G2 XOR 16998 22921 9776; G2 AND 9777 9776 9775; G2 XOR 2408 16999 22796;
  G2 XOR 9775 22921 22922; G2 XOR 23049 22922 9774; G2 XOR 22985 22922 2407; G2 XOR 16999 22922 9773;
  G2 AND 9774 9773 9772; G2 XOR 9772 22922 22923; G2 XOR 17000 22923 9770; G2 XOR 23050 22923 9771;
  G2 XOR 22986 22923 2406; G2 AND 9771 9770 9769; G2 XOR 9769 22923 22924; G2 XOR 17001 22924 9767;
  G2 XOR 22987 22924 2405; G2 XOR 2406 17001 22798; G2 XOR 2405 17002 22799; G2 XOR 2407 17000 22797;
  G2 XOR 23051 22924 9768; G2 AND 9768 9767 9766; G2 XOR 9766 22924 22925; G2 XOR 22988 22925 2404;
  G2 XOR 23052 22925 9765; G2 XOR 17002 22925 9764; G2 AND 9765 9764 9763; G2 XOR 9763 22925 22926;
  G2 XOR 17003 22926 9761; G2 XOR 23053 22926 9762; G2 XOR 22989 22926 2403; G2 AND 9762 9761 9760;
  G2 XOR 9760 22926 22927; G2 XOR 23054 22927 9759; G2 XOR 17004 22927 9758; G2 AND 9759 9758 9757;
  G2 XOR 2403 17004 22801; G2 XOR 2404 17003 22800; G2 XOR 9757 22927 22928; G2 XOR 22991 22928 2401;
  G2 XOR 23055 22928 9756; G2 XOR 17005 22928 9755; G2 AND 9756 9755 9754; G2 XOR 2401 17006 22803;
  G2 XOR 9754 22928 22929; G2 XOR 23056 22929 9753; G2 XOR 17006 22929 9752; G2 AND 9753 9752 9751;
  G2 XOR 9751 22929 22930; G2 XOR 22993 22930 2399; G2 XOR 17007 22930 9749; G2 XOR 23057 22930 9750;
  G2 AND 9750 9749 9748; G2 XOR 9748 22930 22931; G2 XOR 23058 22931 9747; G2 XOR 17008 22931 9746;
  G2 XOR 22994 22931 2398; G2 XOR 2398 17009 22806; G2 XOR 2399 17008 22805; G2 AND 9747 9746 9745;
  G2 XOR 9745 22931 22932; G2 XOR 22995 22932 165; G2 XOR 22992 22929 2400; G2 XOR 2400 17007 22804;
  G1 INV 165 16657; G2 XOR 2404 16657 22864; G2 XOR 2401 16657 22867; G2 XOR 2400 16657 22868;
  G2 XOR 2403 16657 22865; G2 XOR 2399 16657 22869; G2 XOR 2458 16657 22810; G2 XOR 2452 16657 22816;
  G2 XOR 2446 16657 22822; G2 XOR 2440 16657 22828; G2 XOR 2434 16657 22834; G2 XOR 2428 16657 22840;
  G2 XOR 2422 16657 22846; G2 XOR 2416 16657 22852; G2 XOR 2408 16657 22860; G2 XOR 2407 16657 22861;
  G2 XOR 2406 16657 22862; G2 XOR 2460 16657 22808; G2 XOR 16846 16657 22807; G2 AND 22807 16946 22681;
  G2 XOR 22744 22681 2522; G2 XOR 22808 22681 9744; G2 XOR 16947 22681 9743; G2 AND 9744 9743 9742;
  G2 XOR 9742 22681 22682; G2 XOR 22745 22682 2521; G2 XOR 16948 22682 9740; G2 XOR 2522 16948 22556;
  G2 XOR 2521 16949 22557; G2 XOR 2459 16657 22809; G2 XOR 22809 22682 9741; G2 AND 9741 9740 9739;
  G2 XOR 9739 22682 22683; G2 XOR 22746 22683 2520; G2 XOR 22810 22683 9738; G2 XOR 16949 22683 9737;
  G2 AND 9738 9737 9736; G2 XOR 9736 22683 22684; G2 XOR 22747 22684 2519; G2 XOR 16950 22684 9734;
  G2 XOR 2520 16950 22558; G2 XOR 2519 16951 22559; G2 XOR 2454 16657 22814; G2 XOR 2455 16657 22813;
  G2 XOR 2457 16657 22811; G2 XOR 22811 22684 9735; G2 AND 9735 9734 9733; G2 XOR 9733 22684 22685;
  G2 XOR 16951 22685 9731; G2 XOR 22748 22685 2518; G2 XOR 2518 16952 22560; G2 XOR 2456 16657 22812;
  G2 XOR 22812 22685 9732; G2 AND 9732 9731 9730; G2 XOR 9730 22685 22686; G2 XOR 22749 22686 2517;
  G2 XOR 16952 22686 9728; G2 XOR 22813 22686 9729; G2 AND 9729 9728 9727; G2 XOR 9727 22686 22687;
  G2 XOR 22750 22687 2516; G2 XOR 22814 22687 9726; G2 XOR 16953 22687 9725; G2 AND 9726 9725 9724;
  G2 XOR 9724 22687 22688; G2 XOR 22751 22688 2515; G2 XOR 16954 22688 9722; G2 XOR 2517 16953 22561;
  G2 XOR 2516 16954 22562; G2 XOR 2515 16955 22563; G2 XOR 2453 16657 22815; G2 XOR 22815 22688 9723;
  G2 AND 9723 9722 9721; G2 XOR 9721 22688 22689; G2 XOR 22752 22689 2514; G2 XOR 22816 22689 9720;
  G2 XOR 16955 22689 9719; G2 AND 9720 9719 9718; G2 XOR 9718 22689 22690; G2 XOR 22753 22690 2513;
  G2 XOR 16956 22690 9716; G2 XOR 2514 16956 22564; G2 XOR 2513 16957 22565; G2 XOR 2448 16657 22820;
  G2 XOR 2449 16657 22819; G2 XOR 2451 16657 22817; G2 XOR 22817 22690 9717; G2 AND 9717 9716 9715;
  G2 XOR 9715 22690 22691; G2 XOR 16957 22691 9713; G2 XOR 22754 22691 2512; G2 XOR 2512 16958 22566;
  G2 XOR 2450 16657 22818; G2 XOR 22818 22691 9714; G2 AND 9714 9713 9712; G2 XOR 9712 22691 22692;
  G2 XOR 22755 22692 2511; G2 XOR 16958 22692 9710; G2 XOR 22819 22692 9711; G2 AND 9711 9710 9709;
  G2 XOR 9709 22692 22693; G2 XOR 22756 22693 2510; G2 XOR 22820 22693 9708; G2 XOR 16959 22693 9707;
  G2 AND 9708 9707 9706; G2 XOR 9706 22693 22694; G2 XOR 22757 22694 2509; G2 XOR 16960 22694 9704;
  G2 XOR 2511 16959 22567; G2 XOR 2510 16960 22568; G2 XOR 2509 16961 22569; G2 XOR 2447 16657 22821;
  G2 XOR 22821 22694 9705; G2 AND 9705 9704 9703; G2 XOR 9703 22694 22695; G2 XOR 22758 22695 2508;
  G2 XOR 22822 22695 9702; G2 XOR 16961 22695 9701; G2 AND 9702 9701 9700; G2 XOR 9700 22695 22696;
  G2 XOR 22759 22696 2507; G2 XOR 16962 22696 9698; G2 XOR 2508 16962 22570; G2 XOR 2507 16963 22571;
  G2 XOR 2442 16657 22826; G2 XOR 2443 16657 22825; G2 XOR 2445 16657 22823; G2 XOR 22823 22696 9699;
  G2 AND 9699 9698 9697; G2 XOR 9697 22696 22697; G2 XOR 16963 22697 9695; G2 XOR 22760 22697 2506;
  G2 XOR 2506 16964 22572; G2 XOR 2444 16657 22824; G2 XOR 22824 22697 9696; G2 AND 9696 9695 9694;
  G2 XOR 9694 22697 22698; G2 XOR 22761 22698 2505; G2 XOR 16964 22698 9692; G2 XOR 22825 22698 9693;
  G2 AND 9693 9692 9691; G2 XOR 9691 22698 22699; G2 XOR 22762 22699 2504; G2 XOR 22826 22699 9690;
  G2 XOR 16965 22699 9689; G2 AND 9690 9689 9688; G2 XOR 9688 22699 22700; G2 XOR 22763 22700 2503;
  G2 XOR 16966 22700 9686; G2 XOR 2505 16965 22573; G2 XOR 2504 16966 22574; G2 XOR 2503 16967 22575;
  G2 XOR 2441 16657 22827; G2 XOR 22827 22700 9687; G2 AND 9687 9686 9685; G2 XOR 9685 22700 22701;
  G2 XOR 22764 22701 2502; G2 XOR 22828 22701 9684; G2 XOR 16967 22701 9683; G2 AND 9684 9683 9682;
  G2 XOR 9682 22701 22702; G2 XOR 22765 22702 2501; G2 XOR 16968 22702 9680; G2 XOR 2502 16968 22576;
  G2 XOR 2501 16969 22577; G2 XOR 2436 16657 22832; G2 XOR 2437 16657 22831; G2 XOR 2439 16657 22829;
  G2 XOR 22829 22702 9681; G2 AND 9681 9680 9679; G2 XOR 9679 22702 22703; G2 XOR 16969 22703 9677;
  G2 XOR 22766 22703 2500; G2 XOR 2500 16970 22578; G2 XOR 2438 16657 22830; G2 XOR 22830 22703 9678;
  G2 AND 9678 9677 9676; G2 XOR 9676 22703 22704; G2 XOR 22767 22704 2499; G2 XOR 16970 22704 9674;
  G2 XOR 22831 22704 9675; G2 AND 9675 9674 9673; G2 XOR 9673 22704 22705; G2 XOR 22768 22705 2498;
  G2 XOR 22832 22705 9672; G2 XOR 16971 22705 9671; G2 AND 9672 9671 9670; G2 XOR 9670 22705 22706;
  G2 XOR 22769 22706 2497; G2 XOR 16972 22706 9668; G2 XOR 2499 16971 22579; G2 XOR 2498 16972 22580;
  G2 XOR 2497 16973 22581; G2 XOR 2435 16657 22833; G2 XOR 22833 22706 9669; G2 AND 9669 9668 9667;
  G2 XOR 9667 22706 22707; G2 XOR 22770 22707 2496; G2 XOR 22834 22707 9666; G2 XOR 16973 22707 9665;
  G2 AND 9666 9665 9664; G2 XOR 9664 22707 22708; G2 XOR 22771 22708 2495; G2 XOR 16974 22708 9662;
  G2 XOR 2496 16974 22582; G2 XOR 2495 16975 22583; G2 XOR 2430 16657 22838; G2 XOR 2431 16657 22837;
  G2 XOR 2433 16657 22835; G2 XOR 22835 22708 9663; G2 AND 9663 9662 9661; G2 XOR 9661 22708 22709;
  G2 XOR 22772 22709 2494; G2 XOR 2494 16976 22584; G2 XOR 16975 22709 9659; G2 XOR 2432 16657 22836;
  G2 XOR 22836 22709 9660; G2 AND 9660 9659 9658; G2 XOR 9658 22709 22710; G2 XOR 22773 22710 2493;
  G2 XOR 16976 22710 9656; G2 XOR 2493 16977 22585; G2 XOR 22837 22710 9657; G2 AND 9657 9656 9655;
  G2 XOR 9655 22710 22711; G2 XOR 22774 22711 2492; G2 XOR 22838 22711 9654; G2 XOR 16977 22711 9653;
  G2 AND 9654 9653 9652; G2 XOR 2492 16978 22586; G2 XOR 9652 22711 22712; G2 XOR 16978 22712 9650;
  G2 XOR 22775 22712 2491; G2 XOR 2491 16979 22587; G2 XOR 2429 16657 22839; G2 XOR 22839 22712 9651;
  G2 AND 9651 9650 9649; G2 XOR 9649 22712 22713; G2 XOR 22776 22713 2490; G2 XOR 16979 22713 9647;
  G2 XOR 22840 22713 9648; G2 XOR 2490 16980 22588; G2 AND 9648 9647 9646; G2 XOR 9646 22713 22714;
  G2 XOR 16980 22714 9644; G2 XOR 22777 22714 2489; G2 XOR 2489 16981 22589; G2 XOR 2424 16657 22844;
  G2 XOR 2425 16657 22843; G2 XOR 2427 16657 22841; G2 XOR 22841 22714 9645; G2 AND 9645 9644 9643;
  G2 XOR 9643 22714 22715; G2 XOR 22778 22715 2488; G2 XOR 16981 22715 9641; G2 XOR 2488 16982 22590;
  G2 XOR 2426 16657 22842; G2 XOR 22842 22715 9642; G2 AND 9642 9641 9640; G2 XOR 9640 22715 22716;
  G2 XOR 16982 22716 9638; G2 XOR 22843 22716 9639; G2 AND 9639 9638 9637; G2 XOR 9637 22716 22717;
  G2 XOR 22844 22717 9636; G2 XOR 22779 22716 2487; G2 XOR 16983 22717 9635; G2 AND 9636 9635 9634;
  G2 XOR 9634 22717 22718; G2 XOR 2487 16983 22591; G2 XOR 22780 22717 2486; G2 XOR 2486 16984 22592;
  G2 XOR 22781 22718 2485; G2 XOR 2485 16985 22593; G2 XOR 16984 22718 9632; G2 XOR 2423 16657 22845;
  G2 XOR 22845 22718 9633; G2 AND 9633 9632 9631; G2 XOR 9631 22718 22719; G2 XOR 22846 22719 9630;
  G2 XOR 16985 22719 9629; G2 XOR 22782 22719 2484; G2 XOR 2484 16986 22594; G2 AND 9630 9629 9628;
  G2 XOR 9628 22719 22720; G2 XOR 22783 22720 2483; G2 XOR 2483 16987 22595; G2 XOR 16986 22720 9626;
  G2 XOR 2418 16657 22850; G2 XOR 2419 16657 22849; G2 XOR 2421 16657 22847; G2 XOR 22847 22720 9627;
  G2 AND 9627 9626 9625; G2 XOR 9625 22720 22721; G2 XOR 22784 22721 2482; G2 XOR 16987 22721 9623;
  G2 XOR 2482 16988 22596; G2 XOR 2420 16657 22848; G2 XOR 22848 22721 9624; G2 AND 9624 9623 9622;
  G2 XOR 9622 22721 22722; G2 XOR 16988 22722 9620; G2 XOR 22785 22722 2481; G2 XOR 22849 22722 9621;
  G2 AND 9621 9620 9619; G2 XOR 9619 22722 22723; G2 XOR 22786 22723 2480; G2 XOR 22850 22723 9618;
  G2 XOR 2481 16989 22597; G2 XOR 2480 16990 22598; G2 XOR 16989 22723 9617; G2 AND 9618 9617 9616;
  G2 XOR 9616 22723 22724; G2 XOR 22787 22724 2479; G2 XOR 2479 16991 22599; G2 XOR 16990 22724 9614;
  G2 XOR 2417 16657 22851; G2 XOR 22851 22724 9615; G2 AND 9615 9614 9613; G2 XOR 9613 22724 22725;
  G2 XOR 22852 22725 9612; G2 XOR 16991 22725 9611; G2 AND 9612 9611 9610; G2 XOR 9610 22725 22726;
  G2 XOR 22789 22726 2477; G2 XOR 16992 22726 9608; G2 XOR 2477 16993 22601; G2 XOR 22788 22725 2478;
  G2 XOR 2478 16992 22600; G2 XOR 2412 16657 22856; G2 XOR 2413 16657 22855; G2 XOR 2415 16657 22853;
  G2 XOR 22853 22726 9609; G2 AND 9609 9608 9607; G2 XOR 9607 22726 22727; G2 XOR 22790 22727 2476;
  G2 XOR 16993 22727 9605; G2 XOR 2476 16994 22602; G2 XOR 2414 16657 22854; G2 XOR 22854 22727 9606;
  G2 AND 9606 9605 9604; G2 XOR 9604 22727 22728; G2 XOR 22791 22728 2475; G2 XOR 2475 16995 22603;
  G2 XOR 16994 22728 9602; G2 XOR 22855 22728 9603; G2 AND 9603 9602 9601; G2 XOR 9601 22728 22729;
  G2 XOR 22856 22729 9600; G2 XOR 16995 22729 9599; G2 XOR 22792 22729 2474; G2 XOR 2474 16996 22604;
  G2 XOR 2411 16657 22857; G2 AND 16657 4535 17541; G2 XOR 2410 16657 22858; G2 AND 9600 9599 9598;
  G2 XOR 9598 22729 22730; G2 XOR 16996 22730 9596; G2 XOR 22793 22730 2473; G2 XOR 2473 16997 22605;
  G2 XOR 22857 22730 9597; G2 AND 9597 9596 9595; G2 XOR 9595 22730 22731; G2 XOR 22858 22731 9594;
  G2 XOR 22794 22731 2472; G2 XOR 2472 16998 22606; G2 XOR 16997 22731 9593; G2 AND 9594 9593 9592;
  G2 XOR 9592 22731 22732; G2 XOR 22795 22732 2471; G2 XOR 16998 22732 9590; G2 XOR 2471 16999 22607;
  G2 XOR 2405 16657 22863; G2 XOR 22990 22927 2402; G2 XOR 2402 17005 22802; G2 XOR 2402 16657 22866;
  G2 XOR 2409 16657 22859; G2 XOR 22859 22732 9591; G2 AND 9591 9590 9589; G2 XOR 9589 22732 22733;
  G2 XOR 16999 22733 9587; G2 XOR 22860 22733 9588; G2 AND 9588 9587 9586; G2 XOR 9586 22733 22734;
  G2 XOR 22797 22734 2469; G2 XOR 17000 22734 9584; G2 XOR 2469 17001 22609; G2 XOR 22861 22734 9585;
  G2 AND 9585 9584 9583; G2 XOR 22796 22733 2470; G2 XOR 2470 17000 22608; G2 XOR 9583 22734 22735;
  G2 XOR 22798 22735 2468; G2 XOR 17001 22735 9581; G2 XOR 2468 17002 22610; G2 XOR 22862 22735 9582;
  G2 AND 9582 9581 9580; G2 XOR 9580 22735 22736; G2 XOR 17002 22736 9578; G2 XOR 22799 22736 2467;
  G2 XOR 2467 17003 22611; G2 XOR 22863 22736 9579; G2 AND 9579 9578 9577; G2 XOR 9577 22736 22737;
  G2 XOR 22800 22737 2466; G2 XOR 22864 22737 9576; G2 XOR 2466 17004 22612; G2 XOR 17003 22737 9575;
  G2 AND 9576 9575 9574; G2 XOR 9574 22737 22738; G2 XOR 22865 22738 9573; G2 XOR 22801 22738 2465;
  G2 XOR 2465 17005 22613; G2 XOR 17004 22738 9572; G2 AND 9573 9572 9571; G2 XOR 9571 22738 22739;
  G2 XOR 17005 22739 9569; G2 XOR 22802 22739 2464; G2 XOR 2464 17006 22614; G2 XOR 22866 22739 9570;
  G2 AND 9570 9569 9568; G2 XOR 9568 22739 22740; G2 XOR 22867 22740 9567; G2 XOR 22803 22740 2463;
  G2 XOR 2463 17007 22615; G2 XOR 17006 22740 9566; G2 AND 9567 9566 9565; G2 XOR 9565 22740 22741;
  G2 XOR 22804 22741 2462; G2 XOR 2462 17008 22616; G2 XOR 22868 22741 9564; G2 XOR 17007 22741 9563;
  G2 AND 9564 9563 9562; G2 XOR 9562 22741 22742; G2 XOR 17008 22742 9560; G2 XOR 22805 22742 2461;
  G2 XOR 22869 22742 9561; G2 XOR 2461 17009 22617; G2 AND 9561 9560 9559; G2 XOR 9559 22742 22743;
  G2 XOR 22806 22743 166; G1 INV 166 16656; G2 XOR 2470 16656 22672; G2 XOR 2471 16656 22671;
  G2 XOR 2520 16656 22622; G2 XOR 2514 16656 22628; G2 XOR 2508 16656 22634; G2 XOR 2502 16656 22640;
  G2 XOR 2496 16656 22646; G2 XOR 2490 16656 22652; G2 XOR 2484 16656 22658; G2 XOR 2478 16656 22664;
  G2 XOR 2463 16656 22679; G2 XOR 2469 16656 22673; G2 XOR 2465 16656 22677; G2 XOR 2468 16656 22674;
  G2 XOR 2466 16656 22676; G2 XOR 2522 16656 22620; G2 XOR 2523 16656 22619; G2 XOR 16845 16656 22618;
  G2 XOR 2521 16656 22621; G2 XOR 2516 16656 22626; G2 XOR 2517 16656 22625; G2 XOR 2519 16656 22623;
  G2 XOR 2518 16656 22624; G2 XOR 2515 16656 22627; G2 XOR 2510 16656 22632; G2 XOR 2511 16656 22631;
  G2 XOR 2513 16656 22629; G2 XOR 2512 16656 22630; G2 XOR 2509 16656 22633; G2 XOR 2504 16656 22638;
  G2 XOR 2505 16656 22637; G2 XOR 2507 16656 22635; G2 XOR 2506 16656 22636; G2 XOR 2503 16656 22639;
  G2 XOR 2498 16656 22644; G2 XOR 2499 16656 22643; G2 XOR 2501 16656 22641; G2 XOR 2500 16656 22642;
  G2 XOR 2497 16656 22645; G2 XOR 2492 16656 22650; G2 XOR 2493 16656 22649; G2 XOR 2495 16656 22647;
  G2 XOR 2494 16656 22648; G2 XOR 2491 16656 22651; G2 XOR 2486 16656 22656; G2 XOR 2487 16656 22655;
  G2 XOR 2489 16656 22653; G2 XOR 2488 16656 22654; G2 XOR 2485 16656 22657; G2 XOR 2480 16656 22662;
  G2 XOR 2481 16656 22661; G2 XOR 2483 16656 22659; G2 XOR 2482 16656 22660; G2 XOR 2479 16656 22663;
  G2 XOR 2474 16656 22668; G2 XOR 2475 16656 22667; G2 XOR 2477 16656 22665; G2 XOR 2476 16656 22666;
  G2 XOR 2473 16656 22669; G2 AND 16656 4535 17540; G2 XOR 2462 16656 22680; G2 XOR 2464 16656 22678;
  G2 XOR 2467 16656 22675; G2 AND 22618 16946 22492; G2 XOR 22555 22492 2585; G2 XOR 22619 22492 9558;
  G2 XOR 16947 22492 9557; G2 AND 9558 9557 9556; G2 XOR 9556 22492 22493; G2 XOR 22556 22493 2584;
  G2 XOR 16948 22493 9554; G2 XOR 2585 16948 22367; G2 XOR 2584 16949 22368; G2 XOR 22620 22493 9555;
  G2 AND 9555 9554 9553; G2 XOR 9553 22493 22494; G2 XOR 22557 22494 2583; G2 XOR 22621 22494 9552;
  G2 XOR 16949 22494 9551; G2 AND 9552 9551 9550; G2 XOR 9550 22494 22495; G2 XOR 22622 22495 9549;
  G2 XOR 22558 22495 2582; G2 XOR 16950 22495 9548; G2 AND 9549 9548 9547; G2 XOR 9547 22495 22496;
  G2 XOR 16951 22496 9545; G2 XOR 22623 22496 9546; G2 AND 9546 9545 9544; G2 XOR 9544 22496 22497;
  G2 XOR 22560 22497 2580; G2 XOR 16952 22497 9542; G2 XOR 22624 22497 9543; G2 AND 9543 9542 9541;
  G2 XOR 9541 22497 22498; G2 XOR 22561 22498 2579; G2 XOR 22625 22498 9540; G2 XOR 16953 22498 9539;
  G2 AND 9540 9539 9538; G2 XOR 9538 22498 22499; G2 XOR 22562 22499 2578; G2 XOR 22626 22499 9537;
  G2 XOR 16954 22499 9536; G2 AND 9537 9536 9535; G2 XOR 9535 22499 22500; G2 XOR 22563 22500 2577;
  G2 XOR 22627 22500 9534; G2 XOR 16955 22500 9533; G2 AND 9534 9533 9532; G2 XOR 9532 22500 22501;
  G2 XOR 22628 22501 9531; G2 XOR 22564 22501 2576; G2 XOR 16956 22501 9530; G2 AND 9531 9530 9529;
  G2 XOR 9529 22501 22502; G2 XOR 16957 22502 9527; G2 XOR 22629 22502 9528; G2 AND 9528 9527 9526;
  G2 XOR 9526 22502 22503; G2 XOR 22566 22503 2574; G2 XOR 16958 22503 9524; G2 XOR 22630 22503 9525;
  G2 AND 9525 9524 9523; G2 XOR 22565 22502 2575; G2 XOR 22559 22496 2581; G2 XOR 2583 16950 22369;
  G2 XOR 2582 16951 22370; G2 XOR 2581 16952 22371; G2 XOR 2580 16953 22372; G2 XOR 2579 16954 22373;
  G2 XOR 2578 16955 22374; G2 XOR 2577 16956 22375; G2 XOR 2576 16957 22376; G2 XOR 2575 16958 22377;
  G2 XOR 2574 16959 22378; G2 XOR 9523 22503 22504; G2 XOR 22631 22504 9522; G2 XOR 16959 22504 9521;
  G2 AND 9522 9521 9520; G2 XOR 9520 22504 22505; G2 XOR 22568 22505 2572; G2 XOR 16960 22505 9518;
  G2 XOR 22632 22505 9519; G2 AND 9519 9518 9517; G2 XOR 9517 22505 22506; G2 XOR 22569 22506 2571;
  G2 XOR 22633 22506 9516; G2 XOR 16961 22506 9515; G2 AND 9516 9515 9514; G2 XOR 9514 22506 22507;
  G2 XOR 22570 22507 2570; G2 XOR 16962 22507 9512; G2 XOR 22634 22507 9513; G2 AND 9513 9512 9511;
  G2 XOR 9511 22507 22508; G2 XOR 22635 22508 9510; G2 XOR 22571 22508 2569; G2 XOR 16963 22508 9509;
  G2 AND 9510 9509 9508; G2 XOR 9508 22508 22509; G2 XOR 16964 22509 9506; G2 XOR 22636 22509 9507;
  G2 AND 9507 9506 9505; G2 XOR 22572 22509 2568; G2 XOR 22567 22504 2573; G2 XOR 2573 16960 22379;
  G2 XOR 2572 16961 22380; G2 XOR 2571 16962 22381; G2 XOR 2570 16963 22382; G2 XOR 2569 16964 22383;
  G2 XOR 2568 16965 22384; G2 XOR 9505 22509 22510; G2 XOR 22573 22510 2567; G2 XOR 22637 22510 9504;
  G2 XOR 16965 22510 9503; G2 AND 9504 9503 9502; G2 XOR 9502 22510 22511; G2 XOR 22638 22511 9501;
  G2 XOR 22574 22511 2566; G2 XOR 2567 16966 22385; G2 XOR 2566 16967 22386; G2 XOR 16966 22511 9500;
  G2 AND 9501 9500 9499; G2 XOR 9499 22511 22512; G2 XOR 22575 22512 2565; G2 XOR 16967 22512 9497;
  G2 XOR 22639 22512 9498; G2 AND 9498 9497 9496; G2 XOR 9496 22512 22513; G2 XOR 22576 22513 2564;
  G2 XOR 16968 22513 9494; G2 XOR 22640 22513 9495; G2 AND 9495 9494 9493; G2 XOR 9493 22513 22514;
  G2 XOR 16969 22514 9491; G2 XOR 22641 22514 9492; G2 AND 9492 9491 9490; G2 XOR 2565 16968 22387;
  G2 XOR 2564 16969 22388; G2 XOR 9490 22514 22515; G2 XOR 16970 22515 9488; G2 XOR 22578 22515 2562;
  G2 XOR 22642 22515 9489; G2 AND 9489 9488 9487; G2 XOR 9487 22515 22516; G2 XOR 22579 22516 2561;
  G2 XOR 16971 22516 9485; G2 XOR 22643 22516 9486; G2 AND 9486 9485 9484; G2 XOR 9484 22516 22517;
  G2 XOR 22644 22517 9483; G2 XOR 22580 22517 2560; G2 XOR 16972 22517 9482; G2 AND 9483 9482 9481;
  G2 XOR 9481 22517 22518; G2 XOR 16973 22518 9479; G2 XOR 22581 22518 2559; G2 XOR 22645 22518 9480;
  G2 AND 9480 9479 9478; G2 XOR 9478 22518 22519; G2 XOR 22582 22519 2558; G2 XOR 16974 22519 9476;
  G2 XOR 2562 16971 22390; G2 XOR 2561 16972 22391; G2 XOR 2560 16973 22392; G2 XOR 2559 16974 22393;
  G2 XOR 2558 16975 22394; G2 XOR 22646 22519 9477; G2 AND 9477 9476 9475; G2 XOR 9475 22519 22520;
  G2 XOR 22583 22520 2557; G2 XOR 16975 22520 9473; G2 XOR 22647 22520 9474; G2 AND 9474 9473 9472;
  G2 XOR 9472 22520 22521; G2 XOR 16976 22521 9470; G2 XOR 22584 22521 2556; G2 XOR 22648 22521 9471;
  G2 AND 9471 9470 9469; G2 XOR 9469 22521 22522; G2 XOR 22585 22522 2555; G2 XOR 22649 22522 9468;
  G2 XOR 16977 22522 9467; G2 AND 9468 9467 9466; G2 XOR 9466 22522 22523; G2 XOR 22586 22523 2554;
  G2 XOR 16978 22523 9464; G2 XOR 2557 16976 22395; G2 XOR 2556 16977 22396; G2 XOR 2555 16978 22397;
  G2 XOR 2554 16979 22398; G2 XOR 22650 22523 9465; G2 AND 9465 9464 9463; G2 XOR 9463 22523 22524;
  G2 XOR 16979 22524 9461; G2 XOR 22587 22524 2553; G2 XOR 22651 22524 9462; G2 AND 9462 9461 9460;
  G2 XOR 9460 22524 22525; G2 XOR 16980 22525 9458; G2 XOR 22652 22525 9459; G2 AND 9459 9458 9457;
  G2 XOR 22588 22525 2552; G2 XOR 2553 16980 22399; G2 XOR 2552 16981 22400; G2 XOR 9457 22525 22526;
  G2 XOR 22653 22526 9456; G2 XOR 16981 22526 9455; G2 AND 9456 9455 9454; G2 XOR 9454 22526 22527;
  G2 XOR 16982 22527 9452; G2 XOR 22590 22527 2550; G2 XOR 22654 22527 9453; G2 AND 9453 9452 9451;
  G2 XOR 2550 16983 22402; G2 XOR 22589 22526 2551; G2 XOR 2551 16982 22401; G2 XOR 22577 22514 2563;
  G2 XOR 2563 16970 22389; G2 XOR 9451 22527 22528; G2 XOR 22591 22528 2549; G2 XOR 22655 22528 9450;
  G2 XOR 16983 22528 9449; G2 AND 9450 9449 9448; G2 XOR 9448 22528 22529; G2 XOR 22656 22529 9447;
  G2 XOR 16984 22529 9446; G2 AND 9447 9446 9445; G2 XOR 9445 22529 22530; G2 XOR 16985 22530 9443;
  G2 XOR 22592 22529 2548; G2 XOR 22593 22530 2547; G2 XOR 22657 22530 9444; G2 AND 9444 9443 9442;
  G2 XOR 9442 22530 22531; G2 XOR 16986 22531 9440; G2 XOR 22658 22531 9441; G2 AND 9441 9440 9439;
  G2 XOR 9439 22531 22532; G2 XOR 22595 22532 2545; G2 XOR 16987 22532 9437; G2 XOR 22659 22532 9438;
  G2 AND 9438 9437 9436; G2 XOR 9436 22532 22533; G2 XOR 22596 22533 2544; G2 XOR 16988 22533 9434;
  G2 XOR 22660 22533 9435; G2 AND 9435 9434 9433; G2 XOR 9433 22533 22534; G2 XOR 22661 22534 9432;
  G2 XOR 22597 22534 2543; G2 XOR 16989 22534 9431; G2 AND 9432 9431 9430; G2 XOR 9430 22534 22535;
  G2 XOR 16990 22535 9428; G2 XOR 2549 16984 22403; G2 XOR 2548 16985 22404; G2 XOR 2547 16986 22405;
  G2 XOR 2545 16988 22407; G2 XOR 2544 16989 22408; G2 XOR 2543 16990 22409; G2 XOR 22662 22535 9429;
  G2 AND 9429 9428 9427; G2 XOR 9427 22535 22536; G2 XOR 16991 22536 9425; G2 XOR 22663 22536 9426;
  G2 AND 9426 9425 9424; G2 XOR 9424 22536 22537; G2 XOR 22599 22536 2541; G2 XOR 16992 22537 9422;
  G2 XOR 22600 22537 2540; G2 XOR 22664 22537 9423; G2 XOR 2541 16992 22411; G2 XOR 2540 16993 22412;
  G2 XOR 22598 22535 2542; G2 XOR 2542 16991 22410; G2 AND 9423 9422 9421; G2 XOR 22594 22531 2546;
  G2 XOR 2546 16987 22406; G2 XOR 9421 22537 22538; G2 XOR 22601 22538 2539; G2 XOR 22665 22538 9420;
  G2 XOR 2539 16994 22413; G2 XOR 16993 22538 9419; G2 AND 9420 9419 9418; G2 XOR 9418 22538 22539;
  G2 XOR 22602 22539 2538; G2 XOR 16994 22539 9416; G2 XOR 22666 22539 9417; G2 AND 9417 9416 9415;
  G2 XOR 9415 22539 22540; G2 XOR 22603 22540 2537; G2 XOR 22667 22540 9414; G2 XOR 16995 22540 9413;
  G2 AND 9414 9413 9412; G2 XOR 9412 22540 22541; G2 XOR 22668 22541 9411; G2 XOR 22604 22541 2536;
  G2 XOR 16996 22541 9410; G2 AND 9411 9410 9409; G2 XOR 9409 22541 22542; G2 XOR 22669 22542 9408;
  G2 XOR 22605 22542 2535; G2 XOR 2538 16995 22414; G2 XOR 2537 16996 22415; G2 XOR 2536 16997 22416;
  G2 XOR 2535 16998 22417; G2 XOR 16997 22542 9407; G2 AND 9408 9407 9406; G2 XOR 9406 22542 22543;
  G2 XOR 22606 22543 2534; G2 XOR 16998 22543 9404; G2 XOR 2534 16999 22418; G2 XOR 2472 16656 22670;
  G2 XOR 22670 22543 9405; G2 AND 9405 9404 9403; G2 XOR 9403 22543 22544; G2 XOR 22607 22544 2533;
  G2 XOR 16999 22544 9401; G2 XOR 22671 22544 9402; G2 AND 9402 9401 9400; G2 XOR 9400 22544 22545;
  G2 XOR 17000 22545 9398; G2 XOR 22608 22545 2532; G2 XOR 22672 22545 9399; G2 AND 9399 9398 9397;
  G2 XOR 2533 17000 22419; G2 XOR 2532 17001 22420; G2 XOR 9397 22545 22546; G2 XOR 22609 22546 2531;
  G2 XOR 22673 22546 9396; G2 XOR 17001 22546 9395; G2 XOR 2531 17002 22421; G2 AND 9396 9395 9394;
  G2 XOR 9394 22546 22547; G2 XOR 22674 22547 9393; G2 XOR 22610 22547 2530; G2 XOR 2530 17003 22422;
  G2 XOR 17002 22547 9392; G2 AND 9393 9392 9391; G2 XOR 9391 22547 22548; G2 XOR 22611 22548 2529;
  G2 XOR 22675 22548 9390; G2 XOR 17003 22548 9389; G2 AND 9390 9389 9388; G2 XOR 9388 22548 22549;
  G2 XOR 17004 22549 9386; G2 XOR 22676 22549 9387; G2 AND 9387 9386 9385; G2 XOR 9385 22549 22550;
  G2 XOR 22613 22550 2527; G2 XOR 17005 22550 9383; G2 XOR 22677 22550 9384; G2 AND 9384 9383 9382;
  G2 XOR 9382 22550 22551; G2 XOR 17006 22551 9380; G2 XOR 22614 22551 2526; G2 XOR 22612 22549 2528;
  G2 XOR 2528 17005 22424; G2 XOR 2529 17004 22423; G2 XOR 2527 17006 22425; G2 XOR 2526 17007 22426;
  G2 XOR 22678 22551 9381; G2 AND 9381 9380 9379; G2 XOR 9379 22551 22552; G2 XOR 17007 22552 9377;
  G2 XOR 22679 22552 9378; G2 AND 9378 9377 9376; G2 XOR 9376 22552 22553; G2 XOR 17008 22553 9374;
  G2 XOR 22616 22553 2524; G2 XOR 22680 22553 9375; G2 XOR 2524 17009 22428; G2 XOR 22615 22552 2525;
  G2 XOR 2525 17008 22427; G2 AND 9375 9374 9373; G2 XOR 9373 22553 22554; G2 XOR 22617 22554 167;
  G1 INV 167 16655; G2 XOR 2531 16655 22485; G2 XOR 2533 16655 22483; G2 XOR 2526 16655 22490;
  G2 XOR 2583 16655 22433; G2 XOR 2577 16655 22439; G2 XOR 2571 16655 22445; G2 XOR 2565 16655 22451;
  G2 XOR 2559 16655 22457; G2 XOR 2553 16655 22463; G2 XOR 2547 16655 22469; G2 XOR 2541 16655 22475;
  G2 XOR 2530 16655 22486; G2 XOR 2525 16655 22491; G2 XOR 2585 16655 22431; G2 XOR 2586 16655 22430;
  G2 XOR 16844 16655 22429; G2 XOR 2584 16655 22432; G2 XOR 2579 16655 22437; G2 XOR 2580 16655 22436;
  G2 XOR 2582 16655 22434; G2 XOR 2581 16655 22435; G2 XOR 2578 16655 22438; G2 XOR 2573 16655 22443;
  G2 XOR 2574 16655 22442; G2 XOR 2576 16655 22440; G2 XOR 2575 16655 22441; G2 XOR 2572 16655 22444;
  G2 XOR 2567 16655 22449; G2 XOR 2568 16655 22448; G2 XOR 2570 16655 22446; G2 XOR 2569 16655 22447;
  G2 XOR 2566 16655 22450; G2 XOR 2561 16655 22455; G2 XOR 2562 16655 22454; G2 XOR 2564 16655 22452;
  G2 XOR 2563 16655 22453; G2 XOR 2560 16655 22456; G2 XOR 2555 16655 22461; G2 XOR 2556 16655 22460;
  G2 XOR 2558 16655 22458; G2 XOR 2557 16655 22459; G2 XOR 2554 16655 22462; G2 XOR 2549 16655 22467;
  G2 XOR 2550 16655 22466; G2 XOR 2552 16655 22464; G2 XOR 2551 16655 22465; G2 XOR 2548 16655 22468;
  G2 XOR 2543 16655 22473; G2 XOR 2544 16655 22472; G2 XOR 2546 16655 22470; G2 XOR 2545 16655 22471;
  G2 XOR 2542 16655 22474; G2 XOR 2537 16655 22479; G2 XOR 2538 16655 22478; G2 XOR 2540 16655 22476;
  G2 XOR 2539 16655 22477; G2 XOR 2536 16655 22480; G2 AND 22429 16946 22303; G2 XOR 22366 22303 2648;
  G2 XOR 16947 22303 9371; G2 XOR 22430 22303 9372; G2 AND 9372 9371 9370; G2 XOR 9370 22303 22304;
  G2 XOR 22367 22304 2647; G2 XOR 22431 22304 9369; G2 XOR 16948 22304 9368; G2 AND 9369 9368 9367;
  G2 XOR 9367 22304 22305; G2 XOR 22432 22305 9366; G2 XOR 22368 22305 2646; G2 XOR 16949 22305 9365;
  G2 AND 9366 9365 9364; G2 XOR 9364 22305 22306; G2 XOR 16950 22306 9362; G2 XOR 22433 22306 9363;
  G2 AND 9363 9362 9361; G2 XOR 9361 22306 22307; G2 XOR 22370 22307 2644; G2 XOR 16951 22307 9359;
  G2 XOR 22434 22307 9360; G2 AND 9360 9359 9358; G2 XOR 22369 22306 2645; G2 XOR 9358 22307 22308;
  G2 XOR 22371 22308 2643; G2 XOR 22435 22308 9357; G2 XOR 16952 22308 9356; G2 AND 9357 9356 9355;
  G2 XOR 9355 22308 22309; G2 XOR 22372 22309 2642; G2 XOR 16953 22309 9353; G2 XOR 22436 22309 9354;
  G2 AND 9354 9353 9352; G2 XOR 9352 22309 22310; G2 XOR 22373 22310 2641; G2 XOR 22437 22310 9351;
  G2 XOR 16954 22310 9350; G2 AND 9351 9350 9349; G2 XOR 9349 22310 22311; G2 XOR 22438 22311 9348;
  G2 XOR 22374 22311 2640; G2 XOR 16955 22311 9347; G2 AND 9348 9347 9346; G2 XOR 9346 22311 22312;
  G2 XOR 16956 22312 9344; G2 XOR 22439 22312 9345; G2 AND 9345 9344 9343; G2 XOR 9343 22312 22313;
  G2 XOR 22376 22313 2638; G2 XOR 16957 22313 9341; G2 XOR 22440 22313 9342; G2 AND 9342 9341 9340;
  G2 XOR 22375 22312 2639; G2 XOR 9340 22313 22314; G2 XOR 22377 22314 2637; G2 XOR 22441 22314 9339;
  G2 XOR 16958 22314 9338; G2 AND 9339 9338 9337; G2 XOR 9337 22314 22315; G2 XOR 22378 22315 2636;
  G2 XOR 16959 22315 9335; G2 XOR 22442 22315 9336; G2 AND 9336 9335 9334; G2 XOR 9334 22315 22316;
  G2 XOR 22379 22316 2635; G2 XOR 22443 22316 9333; G2 XOR 16960 22316 9332; G2 AND 9333 9332 9331;
  G2 XOR 9331 22316 22317; G2 XOR 22444 22317 9330; G2 XOR 22380 22317 2634; G2 XOR 16961 22317 9329;
  G2 AND 9330 9329 9328; G2 XOR 9328 22317 22318; G2 XOR 16962 22318 9326; G2 XOR 22445 22318 9327;
  G2 AND 9327 9326 9325; G2 XOR 9325 22318 22319; G2 XOR 22382 22319 2632; G2 XOR 16963 22319 9323;
  G2 XOR 22446 22319 9324; G2 AND 9324 9323 9322; G2 XOR 22381 22318 2633; G2 XOR 9322 22319 22320;
  G2 XOR 22383 22320 2631; G2 XOR 22447 22320 9321; G2 XOR 16964 22320 9320; G2 AND 9321 9320 9319;
  G2 XOR 9319 22320 22321; G2 XOR 22384 22321 2630; G2 XOR 16965 22321 9317; G2 XOR 22448 22321 9318;
  G2 AND 9318 9317 9316; G2 XOR 9316 22321 22322; G2 XOR 22385 22322 2629; G2 XOR 22449 22322 9315;
  G2 XOR 16966 22322 9314; G2 AND 9315 9314 9313; G2 XOR 9313 22322 22323; G2 XOR 22450 22323 9312;
  G2 XOR 22386 22323 2628; G2 XOR 16967 22323 9311; G2 AND 9312 9311 9310; G2 XOR 9310 22323 22324;
  G2 XOR 16968 22324 9308; G2 XOR 22451 22324 9309; G2 AND 9309 9308 9307; G2 XOR 9307 22324 22325;
  G2 XOR 22388 22325 2626; G2 XOR 16969 22325 9305; G2 XOR 22452 22325 9306; G2 AND 9306 9305 9304;
  G2 XOR 22387 22324 2627; G2 XOR 9304 22325 22326; G2 XOR 22389 22326 2625; G2 XOR 22453 22326 9303;
  G2 XOR 16970 22326 9302; G2 AND 9303 9302 9301; G2 XOR 9301 22326 22327; G2 XOR 22390 22327 2624;
  G2 XOR 16971 22327 9299; G2 XOR 22454 22327 9300; G2 AND 9300 9299 9298; G2 XOR 9298 22327 22328;
  G2 XOR 22391 22328 2623; G2 XOR 22455 22328 9297; G2 XOR 16972 22328 9296; G2 AND 9297 9296 9295;
  G2 XOR 9295 22328 22329; G2 XOR 22456 22329 9294; G2 XOR 22392 22329 2622; G2 XOR 16973 22329 9293;
  G2 AND 9294 9293 9292; G2 XOR 9292 22329 22330; G2 XOR 16974 22330 9290; G2 XOR 22457 22330 9291;
  G2 AND 9291 9290 9289; G2 XOR 9289 22330 22331; G2 XOR 22394 22331 2620; G2 XOR 16975 22331 9287;
  G2 XOR 22458 22331 9288; G2 AND 9288 9287 9286; G2 XOR 22393 22330 2621; G2 XOR 9286 22331 22332;
  G2 XOR 22395 22332 2619; G2 XOR 22459 22332 9285; G2 XOR 16976 22332 9284; G2 AND 9285 9284 9283;
  G2 XOR 9283 22332 22333; G2 XOR 22396 22333 2618; G2 XOR 16977 22333 9281; G2 XOR 22460 22333 9282;
  G2 AND 9282 9281 9280; G2 XOR 9280 22333 22334; G2 XOR 22397 22334 2617; G2 XOR 22461 22334 9279;
  G2 XOR 16978 22334 9278; G2 AND 9279 9278 9277; G2 XOR 9277 22334 22335; G2 XOR 22462 22335 9276;
  G2 XOR 22398 22335 2616; G2 XOR 16979 22335 9275; G2 AND 9276 9275 9274; G2 XOR 9274 22335 22336;
  G2 XOR 16980 22336 9272; G2 XOR 22463 22336 9273; G2 AND 9273 9272 9271; G2 XOR 9271 22336 22337;
  G2 XOR 22400 22337 2614; G2 XOR 16981 22337 9269; G2 XOR 22464 22337 9270; G2 AND 9270 9269 9268;
  G2 XOR 22399 22336 2615; G2 XOR 9268 22337 22338; G2 XOR 22465 22338 9267; G2 XOR 16982 22338 9266;
  G2 XOR 22401 22338 2613; G2 AND 9267 9266 9265; G2 XOR 9265 22338 22339; G2 XOR 16983 22339 9263;
  G2 XOR 22402 22339 2612; G2 XOR 22466 22339 9264; G2 AND 9264 9263 9262; G2 XOR 9262 22339 22340;
  G2 XOR 22467 22340 9261; G2 XOR 22403 22340 2611; G2 XOR 16984 22340 9260; G2 AND 9261 9260 9259;
  G2 XOR 9259 22340 22341; G2 XOR 16985 22341 9257; G2 XOR 22404 22341 2610; G2 XOR 22468 22341 9258;
  G2 AND 9258 9257 9256; G2 XOR 9256 22341 22342; G2 XOR 16986 22342 9254; G2 XOR 22469 22342 9255;
  G2 AND 9255 9254 9253; G2 XOR 9253 22342 22343; G2 XOR 22470 22343 9252; G2 XOR 22406 22343 2608;
  G2 XOR 16987 22343 9251; G2 AND 9252 9251 9250; G2 XOR 22405 22342 2609; G2 XOR 9250 22343 22344;
  G2 XOR 22407 22344 2607; G2 XOR 22471 22344 9249; G2 XOR 16988 22344 9248; G2 AND 9249 9248 9247;
  G2 XOR 9247 22344 22345; G2 XOR 22408 22345 2606; G2 XOR 16989 22345 9245; G2 XOR 22472 22345 9246;
  G2 AND 9246 9245 9244; G2 XOR 9244 22345 22346; G2 XOR 22409 22346 2605; G2 XOR 22473 22346 9243;
  G2 XOR 16990 22346 9242; G2 AND 9243 9242 9241; G2 XOR 9241 22346 22347; G2 XOR 16991 22347 9239;
  G2 XOR 22410 22347 2604; G2 XOR 22474 22347 9240; G2 AND 9240 9239 9238; G2 XOR 9238 22347 22348;
  G2 XOR 16992 22348 9236; G2 XOR 22475 22348 9237; G2 AND 9237 9236 9235; G2 XOR 9235 22348 22349;
  G2 XOR 22412 22349 2602; G2 XOR 22476 22349 9234; G2 XOR 16993 22349 9233; G2 AND 9234 9233 9232;
  G2 XOR 22411 22348 2603; G2 XOR 9232 22349 22350; G2 XOR 16994 22350 9230; G2 XOR 22413 22350 2601;
  G2 XOR 22477 22350 9231; G2 AND 9231 9230 9229; G2 XOR 9229 22350 22351; G2 XOR 22414 22351 2600;
  G2 XOR 16995 22351 9227; G2 XOR 22478 22351 9228; G2 AND 9228 9227 9226; G2 XOR 9226 22351 22352;
  G2 XOR 22479 22352 9225; G2 XOR 22415 22352 2599; G2 XOR 2648 16948 22178; G2 XOR 2647 16949 22179;
  G2 XOR 2646 16950 22180; G2 XOR 2645 16951 22181; G2 XOR 2644 16952 22182; G2 XOR 2643 16953 22183;
  G2 XOR 2642 16954 22184; G2 XOR 2641 16955 22185; G2 XOR 2640 16956 22186; G2 XOR 2639 16957 22187;
  G2 XOR 2638 16958 22188; G2 XOR 2637 16959 22189; G2 XOR 2636 16960 22190; G2 XOR 2635 16961 22191;
  G2 XOR 2634 16962 22192; G2 XOR 2633 16963 22193; G2 XOR 2632 16964 22194; G2 XOR 2631 16965 22195;
  G2 XOR 2630 16966 22196; G2 XOR 2629 16967 22197; G2 XOR 2628 16968 22198; G2 XOR 2627 16969 22199;
  G2 XOR 2626 16970 22200; G2 XOR 2625 16971 22201; G2 XOR 2624 16972 22202; G2 XOR 2623 16973 22203;
  G2 XOR 2622 16974 22204; G2 XOR 2621 16975 22205; G2 XOR 2620 16976 22206; G2 XOR 2619 16977 22207;
  G2 XOR 2618 16978 22208; G2 XOR 2617 16979 22209; G2 XOR 2616 16980 22210; G2 XOR 2615 16981 22211;
  G2 XOR 2614 16982 22212; G2 XOR 2613 16983 22213; G2 XOR 2612 16984 22214; G2 XOR 2611 16985 22215;
  G2 XOR 2610 16986 22216; G2 XOR 2609 16987 22217; G2 XOR 2608 16988 22218; G2 XOR 2607 16989 22219;
  G2 XOR 2606 16990 22220; G2 XOR 2605 16991 22221; G2 XOR 2604 16992 22222; G2 XOR 2603 16993 22223;
  G2 XOR 2602 16994 22224; G2 XOR 2601 16995 22225; G2 XOR 2600 16996 22226; G2 XOR 2599 16997 22227;
  G2 XOR 2528 16655 22488; G2 XOR 2535 16655 22481; G2 XOR 16996 22352 9224; G2 AND 9225 9224 9223;
  G2 XOR 9223 22352 22353; G2 XOR 22480 22353 9222; G2 XOR 16997 22353 9221; G2 AND 9222 9221 9220;
  G2 XOR 9220 22353 22354; G2 XOR 16998 22354 9218; G2 XOR 22416 22353 2598; G2 XOR 22481 22354 9219;
  G2 AND 9219 9218 9217; G2 XOR 9217 22354 22355; G2 XOR 22418 22355 2596; G2 XOR 16999 22355 9215;
  G2 XOR 2598 16998 22228; G2 XOR 2596 17000 22230; G2 AND 16655 4535 17539; G2 XOR 22417 22354 2597;
  G2 XOR 2597 16999 22229; G2 XOR 2532 16655 22484; G2 XOR 2529 16655 22487; G2 XOR 2527 16655 22489;
  G2 XOR 2534 16655 22482; G2 XOR 22482 22355 9216; G2 AND 9216 9215 9214; G2 XOR 9214 22355 22356;
  G2 XOR 22419 22356 2595; G2 XOR 22483 22356 9213; G2 XOR 17000 22356 9212; G2 XOR 2595 17001 22231;
  G2 AND 9213 9212 9211; G2 XOR 9211 22356 22357; G2 XOR 22420 22357 2594; G2 XOR 17001 22357 9209;
  G2 XOR 2594 17002 22232; G2 XOR 22484 22357 9210; G2 AND 9210 9209 9208; G2 XOR 9208 22357 22358;
  G2 XOR 22421 22358 2593; G2 XOR 22485 22358 9207; G2 XOR 2593 17003 22233; G2 XOR 17002 22358 9206;
  G2 AND 9207 9206 9205; G2 XOR 9205 22358 22359; G2 XOR 22486 22359 9204; G2 XOR 22422 22359 2592;
  G2 XOR 17003 22359 9203; G2 AND 9204 9203 9202; G2 XOR 9202 22359 22360; G2 XOR 17004 22360 9200;
  G2 XOR 22487 22360 9201; G2 AND 9201 9200 9199; G2 XOR 9199 22360 22361; G2 XOR 22424 22361 2590;
  G2 XOR 17005 22361 9197; G2 XOR 22488 22361 9198; G2 AND 9198 9197 9196; G2 XOR 9196 22361 22362;
  G2 XOR 22425 22362 2589; G2 XOR 22489 22362 9195; G2 XOR 17006 22362 9194; G2 XOR 22423 22360 2591;
  G2 XOR 2591 17005 22235; G2 XOR 2592 17004 22234; G2 XOR 2590 17006 22236; G2 AND 9195 9194 9193;
  G2 XOR 9193 22362 22363; G2 XOR 22426 22363 2588; G2 XOR 17007 22363 9191; G2 XOR 22490 22363 9192;
  G2 AND 9192 9191 9190; G2 XOR 9190 22363 22364; G2 XOR 22427 22364 2587; G2 XOR 22491 22364 9189;
  G2 XOR 2588 17008 22238; G2 XOR 2587 17009 22239; G2 XOR 2589 17007 22237; G2 XOR 17008 22364 9188;
  G2 AND 9189 9188 9187; G2 XOR 9187 22364 22365; G2 XOR 22428 22365 168; G1 INV 168 16654;
  G2 XOR 2595 16654 22295; G2 XOR 2591 16654 22299; G2 XOR 2645 16654 22245; G2 XOR 2639 16654 22251;
  G2 XOR 2633 16654 22257; G2 XOR 2627 16654 22263; G2 XOR 2621 16654 22269; G2 XOR 2615 16654 22275;
  G2 XOR 2609 16654 22281; G2 XOR 2603 16654 22287; G2 XOR 2596 16654 22294; G2 XOR 2594 16654 22296;
  G2 XOR 2588 16654 22302; G2 XOR 2592 16654 22298; G2 XOR 2589 16654 22301; G2 XOR 2647 16654 22243;
  G2 XOR 2648 16654 22242; G2 XOR 16843 16654 22240; G2 XOR 2649 16654 22241; G2 XOR 2646 16654 22244;
  G2 XOR 2641 16654 22249; G2 XOR 2642 16654 22248; G2 XOR 2644 16654 22246; G2 XOR 2643 16654 22247;
  G2 XOR 2640 16654 22250; G2 XOR 2635 16654 22255; G2 XOR 2636 16654 22254; G2 XOR 2638 16654 22252;
  G2 XOR 2637 16654 22253; G2 XOR 2634 16654 22256; G2 XOR 2629 16654 22261; G2 XOR 2630 16654 22260;
  G2 XOR 2632 16654 22258; G2 XOR 2631 16654 22259; G2 XOR 2628 16654 22262; G2 XOR 2623 16654 22267;
  G2 XOR 2624 16654 22266; G2 XOR 2626 16654 22264; G2 XOR 2625 16654 22265; G2 XOR 2622 16654 22268;
  G2 XOR 2617 16654 22273; G2 XOR 2618 16654 22272; G2 XOR 2620 16654 22270; G2 XOR 2619 16654 22271;
  G2 XOR 2616 16654 22274; G2 XOR 2611 16654 22279; G2 XOR 2612 16654 22278; G2 XOR 2614 16654 22276;
  G2 XOR 2613 16654 22277; G2 XOR 2610 16654 22280; G2 XOR 2605 16654 22285; G2 XOR 2606 16654 22284;
  G2 XOR 2608 16654 22282; G2 XOR 2607 16654 22283; G2 XOR 2604 16654 22286; G2 XOR 2599 16654 22291;
  G2 XOR 2600 16654 22290; G2 XOR 2602 16654 22288; G2 XOR 2601 16654 22289; G2 XOR 2598 16654 22292;
  G2 AND 16654 4535 17538; G2 XOR 2590 16654 22300; G2 AND 22240 16946 22114; G2 XOR 22177 22114 2711;
  G2 XOR 16947 22114 9185; G2 XOR 22241 22114 9186; G2 AND 9186 9185 9184; G2 XOR 9184 22114 22115;
  G2 XOR 22178 22115 2710; G2 XOR 22242 22115 9183; G2 XOR 16948 22115 9182; G2 AND 9183 9182 9181;
  G2 XOR 9181 22115 22116; G2 XOR 22243 22116 9180; G2 XOR 22179 22116 2709; G2 XOR 16949 22116 9179;
  G2 AND 9180 9179 9178; G2 XOR 9178 22116 22117; G2 XOR 16950 22117 9176; G2 XOR 22244 22117 9177;
  G2 AND 9177 9176 9175; G2 XOR 9175 22117 22118; G2 XOR 22181 22118 2707; G2 XOR 16951 22118 9173;
  G2 XOR 22245 22118 9174; G2 AND 9174 9173 9172; G2 XOR 22180 22117 2708; G2 XOR 9172 22118 22119;
  G2 XOR 22182 22119 2706; G2 XOR 22246 22119 9171; G2 XOR 16952 22119 9170; G2 AND 9171 9170 9169;
  G2 XOR 9169 22119 22120; G2 XOR 22183 22120 2705; G2 XOR 16953 22120 9167; G2 XOR 22247 22120 9168;
  G2 AND 9168 9167 9166; G2 XOR 9166 22120 22121; G2 XOR 22184 22121 2704; G2 XOR 22248 22121 9165;
  G2 XOR 16954 22121 9164; G2 AND 9165 9164 9163; G2 XOR 9163 22121 22122; G2 XOR 22249 22122 9162;
  G2 XOR 22185 22122 2703; G2 XOR 16955 22122 9161; G2 AND 9162 9161 9160; G2 XOR 9160 22122 22123;
  G2 XOR 16956 22123 9158; G2 XOR 22250 22123 9159; G2 AND 9159 9158 9157; G2 XOR 9157 22123 22124;
  G2 XOR 22187 22124 2701; G2 XOR 16957 22124 9155; G2 XOR 22251 22124 9156; G2 AND 9156 9155 9154;
  G2 XOR 22186 22123 2702; G2 XOR 9154 22124 22125; G2 XOR 22188 22125 2700; G2 XOR 22252 22125 9153;
  G2 XOR 16958 22125 9152; G2 AND 9153 9152 9151; G2 XOR 9151 22125 22126; G2 XOR 22189 22126 2699;
  G2 XOR 16959 22126 9149; G2 XOR 22253 22126 9150; G2 AND 9150 9149 9148; G2 XOR 9148 22126 22127;
  G2 XOR 22190 22127 2698; G2 XOR 22254 22127 9147; G2 XOR 16960 22127 9146; G2 AND 9147 9146 9145;
  G2 XOR 9145 22127 22128; G2 XOR 22255 22128 9144; G2 XOR 22191 22128 2697; G2 XOR 16961 22128 9143;
  G2 AND 9144 9143 9142; G2 XOR 9142 22128 22129; G2 XOR 16962 22129 9140; G2 XOR 22256 22129 9141;
  G2 AND 9141 9140 9139; G2 XOR 9139 22129 22130; G2 XOR 22193 22130 2695; G2 XOR 16963 22130 9137;
  G2 XOR 22257 22130 9138; G2 AND 9138 9137 9136; G2 XOR 22192 22129 2696; G2 XOR 9136 22130 22131;
  G2 XOR 22194 22131 2694; G2 XOR 22258 22131 9135; G2 XOR 16964 22131 9134; G2 AND 9135 9134 9133;
  G2 XOR 9133 22131 22132; G2 XOR 22195 22132 2693; G2 XOR 16965 22132 9131; G2 XOR 22259 22132 9132;
  G2 AND 9132 9131 9130; G2 XOR 9130 22132 22133; G2 XOR 22196 22133 2692; G2 XOR 22260 22133 9129;
  G2 XOR 16966 22133 9128; G2 AND 9129 9128 9127; G2 XOR 9127 22133 22134; G2 XOR 22261 22134 9126;
  G2 XOR 22197 22134 2691; G2 XOR 16967 22134 9125; G2 AND 9126 9125 9124; G2 XOR 9124 22134 22135;
  G2 XOR 16968 22135 9122; G2 XOR 22262 22135 9123; G2 AND 9123 9122 9121; G2 XOR 9121 22135 22136;
  G2 XOR 22199 22136 2689; G2 XOR 16969 22136 9119; G2 XOR 22263 22136 9120; G2 AND 9120 9119 9118;
  G2 XOR 22198 22135 2690; G2 XOR 9118 22136 22137; G2 XOR 22200 22137 2688; G2 XOR 22264 22137 9117;
  G2 XOR 16970 22137 9116; G2 AND 9117 9116 9115; G2 XOR 9115 22137 22138; G2 XOR 22201 22138 2687;
  G2 XOR 16971 22138 9113; G2 XOR 22265 22138 9114; G2 AND 9114 9113 9112; G2 XOR 9112 22138 22139;
  G2 XOR 22202 22139 2686; G2 XOR 22266 22139 9111; G2 XOR 16972 22139 9110; G2 AND 9111 9110 9109;
  G2 XOR 9109 22139 22140; G2 XOR 22267 22140 9108; G2 XOR 22203 22140 2685; G2 XOR 16973 22140 9107;
  G2 AND 9108 9107 9106; G2 XOR 9106 22140 22141; G2 XOR 16974 22141 9104; G2 XOR 22268 22141 9105;
  G2 AND 9105 9104 9103; G2 XOR 9103 22141 22142; G2 XOR 22205 22142 2683; G2 XOR 16975 22142 9101;
  G2 XOR 22269 22142 9102; G2 AND 9102 9101 9100; G2 XOR 22204 22141 2684; G2 XOR 9100 22142 22143;
  G2 XOR 22270 22143 9099; G2 XOR 16976 22143 9098; G2 XOR 22206 22143 2682; G2 AND 9099 9098 9097;
  G2 XOR 9097 22143 22144; G2 XOR 16977 22144 9095; G2 XOR 22207 22144 2681; G2 XOR 22271 22144 9096;
  G2 AND 9096 9095 9094; G2 XOR 9094 22144 22145; G2 XOR 22272 22145 9093; G2 XOR 22208 22145 2680;
  G2 XOR 16978 22145 9092; G2 AND 9093 9092 9091; G2 XOR 9091 22145 22146; G2 XOR 16979 22146 9089;
  G2 XOR 22209 22146 2679; G2 XOR 22273 22146 9090; G2 AND 9090 9089 9088; G2 XOR 9088 22146 22147;
  G2 XOR 16980 22147 9086; G2 XOR 22274 22147 9087; G2 AND 9087 9086 9085; G2 XOR 9085 22147 22148;
  G2 XOR 22275 22148 9084; G2 XOR 22211 22148 2677; G2 XOR 16981 22148 9083; G2 AND 9084 9083 9082;
  G2 XOR 22210 22147 2678; G2 XOR 9082 22148 22149; G2 XOR 22212 22149 2676; G2 XOR 22276 22149 9081;
  G2 XOR 16982 22149 9080; G2 AND 9081 9080 9079; G2 XOR 9079 22149 22150; G2 XOR 22213 22150 2675;
  G2 XOR 16983 22150 9077; G2 XOR 22277 22150 9078; G2 AND 9078 9077 9076; G2 XOR 9076 22150 22151;
  G2 XOR 22214 22151 2674; G2 XOR 22278 22151 9075; G2 XOR 16984 22151 9074; G2 AND 9075 9074 9073;
  G2 XOR 9073 22151 22152; G2 XOR 16985 22152 9071; G2 XOR 22215 22152 2673; G2 XOR 22279 22152 9072;
  G2 AND 9072 9071 9070; G2 XOR 9070 22152 22153; G2 XOR 16986 22153 9068; G2 XOR 22280 22153 9069;
  G2 AND 9069 9068 9067; G2 XOR 9067 22153 22154; G2 XOR 22217 22154 2671; G2 XOR 22281 22154 9066;
  G2 XOR 16987 22154 9065; G2 AND 9066 9065 9064; G2 XOR 22216 22153 2672; G2 XOR 9064 22154 22155;
  G2 XOR 16988 22155 9062; G2 XOR 22218 22155 2670; G2 XOR 22282 22155 9063; G2 AND 9063 9062 9061;
  G2 XOR 9061 22155 22156; G2 XOR 22219 22156 2669; G2 XOR 16989 22156 9059; G2 XOR 22283 22156 9060;
  G2 AND 9060 9059 9058; G2 XOR 9058 22156 22157; G2 XOR 22284 22157 9057; G2 XOR 22220 22157 2668;
  G2 XOR 16990 22157 9056; G2 AND 9057 9056 9055; G2 XOR 9055 22157 22158; G2 XOR 22285 22158 9054;
  G2 XOR 16991 22158 9053; G2 AND 9054 9053 9052; G2 XOR 9052 22158 22159; G2 XOR 16992 22159 9050;
  G2 XOR 22221 22158 2667; G2 XOR 22286 22159 9051; G2 AND 9051 9050 9049; G2 XOR 9049 22159 22160;
  G2 XOR 22223 22160 2665; G2 XOR 22287 22160 9048; G2 XOR 16993 22160 9047; G2 AND 9048 9047 9046;
  G2 XOR 22222 22159 2666; G2 XOR 9046 22160 22161; G2 XOR 22288 22161 9045; G2 XOR 16994 22161 9044;
  G2 XOR 22224 22161 2664; G2 XOR 2711 16948 21989; G2 XOR 2710 16949 21990; G2 XOR 2709 16950 21991;
  G2 XOR 2708 16951 21992; G2 XOR 2707 16952 21993; G2 XOR 2706 16953 21994; G2 XOR 2705 16954 21995;
  G2 XOR 2704 16955 21996; G2 XOR 2703 16956 21997; G2 XOR 2702 16957 21998; G2 XOR 2701 16958 21999;
  G2 XOR 2700 16959 22000; G2 XOR 2699 16960 22001; G2 XOR 2698 16961 22002; G2 XOR 2697 16962 22003;
  G2 XOR 2696 16963 22004; G2 XOR 2695 16964 22005; G2 XOR 2694 16965 22006; G2 XOR 2693 16966 22007;
  G2 XOR 2692 16967 22008; G2 XOR 2691 16968 22009; G2 XOR 2690 16969 22010; G2 XOR 2689 16970 22011;
  G2 XOR 2688 16971 22012; G2 XOR 2687 16972 22013; G2 XOR 2686 16973 22014; G2 XOR 2685 16974 22015;
  G2 XOR 2684 16975 22016; G2 XOR 2683 16976 22017; G2 XOR 2682 16977 22018; G2 XOR 2681 16978 22019;
  G2 XOR 2680 16979 22020; G2 XOR 2679 16980 22021; G2 XOR 2678 16981 22022; G2 XOR 2677 16982 22023;
  G2 XOR 2676 16983 22024; G2 XOR 2675 16984 22025; G2 XOR 2674 16985 22026; G2 XOR 2673 16986 22027;
  G2 XOR 2672 16987 22028; G2 XOR 2671 16988 22029; G2 XOR 2670 16989 22030; G2 XOR 2669 16990 22031;
  G2 XOR 2668 16991 22032; G2 XOR 2667 16992 22033; G2 XOR 2666 16993 22034; G2 XOR 2665 16994 22035;
  G2 XOR 2664 16995 22036; G2 AND 9045 9044 9043; G2 XOR 9043 22161 22162; G2 XOR 16995 22162 9041;
  G2 XOR 22225 22162 2663; G2 XOR 2663 16996 22037; G2 XOR 22289 22162 9042; G2 AND 9042 9041 9040;
  G2 XOR 9040 22162 22163; G2 XOR 22226 22163 2662; G2 XOR 16996 22163 9038; G2 XOR 22290 22163 9039;
  G2 AND 9039 9038 9037; G2 XOR 9037 22163 22164; G2 XOR 16997 22164 9035; G2 XOR 22291 22164 9036;
  G2 AND 9036 9035 9034; G2 XOR 22227 22164 2661; G2 XOR 9034 22164 22165; G2 XOR 22228 22165 2660;
  G2 XOR 16998 22165 9032; G2 XOR 22292 22165 9033; G2 AND 9033 9032 9031; G2 XOR 9031 22165 22166;
  G2 XOR 22229 22166 2659; G2 XOR 16999 22166 9029; G2 XOR 2662 16997 22038; G2 XOR 2661 16998 22039;
  G2 XOR 2660 16999 22040; G2 XOR 2659 17000 22041; G2 XOR 2593 16654 22297; G2 XOR 2597 16654 22293;
  G2 XOR 22293 22166 9030; G2 AND 9030 9029 9028; G2 XOR 9028 22166 22167; G2 XOR 22230 22167 2658;
  G2 XOR 22294 22167 9027; G2 XOR 17000 22167 9026; G2 XOR 2658 17001 22042; G2 AND 9027 9026 9025;
  G2 XOR 9025 22167 22168; G2 XOR 22231 22168 2657; G2 XOR 17001 22168 9023; G2 XOR 2657 17002 22043;
  G2 XOR 22295 22168 9024; G2 AND 9024 9023 9022; G2 XOR 9022 22168 22169; G2 XOR 22232 22169 2656;
  G2 XOR 22296 22169 9021; G2 XOR 17002 22169 9020; G2 AND 9021 9020 9019; G2 XOR 9019 22169 22170;
  G2 XOR 22297 22170 9018; G2 XOR 22233 22170 2655; G2 XOR 17003 22170 9017; G2 AND 9018 9017 9016;
  G2 XOR 9016 22170 22171; G2 XOR 22234 22171 2654; G2 XOR 17004 22171 9014; G2 XOR 22298 22171 9015;
  G2 AND 9015 9014 9013; G2 XOR 9013 22171 22172; G2 XOR 22235 22172 2653; G2 XOR 17005 22172 9011;
  G2 XOR 22299 22172 9012; G2 AND 9012 9011 9010; G2 XOR 2653 17006 22047; G2 XOR 2654 17005 22046;
  G2 XOR 2656 17003 22044; G2 XOR 2655 17004 22045; G2 XOR 9010 22172 22173; G2 XOR 22236 22173 2652;
  G2 XOR 22300 22173 9009; G2 XOR 17006 22173 9008; G2 AND 9009 9008 9007; G2 XOR 9007 22173 22174;
  G2 XOR 22237 22174 2651; G2 XOR 17007 22174 9005; G2 XOR 2652 17007 22048; G2 XOR 2651 17008 22049;
  G2 XOR 22301 22174 9006; G2 AND 9006 9005 9004; G2 XOR 9004 22174 22175; G2 XOR 17008 22175 9002;
  G2 XOR 22238 22175 2650; G2 XOR 22302 22175 9003; G2 AND 9003 9002 9001; G2 XOR 9001 22175 22176;
  G2 XOR 22239 22176 169; G2 XOR 2650 17009 22050; G1 INV 169 16653; G2 XOR 2658 16653 22106;
  G2 XOR 2654 16653 22110; G2 XOR 2708 16653 22056; G2 XOR 2702 16653 22062; G2 XOR 2696 16653 22068;
  G2 XOR 2690 16653 22074; G2 XOR 2684 16653 22080; G2 XOR 2678 16653 22086; G2 XOR 2672 16653 22092;
  G2 XOR 2666 16653 22098; G2 XOR 2657 16653 22107; G2 XOR 2652 16653 22112; G2 XOR 2651 16653 22113;
  G2 XOR 2653 16653 22111; G2 XOR 2656 16653 22108; G2 XOR 2710 16653 22054; G2 XOR 2711 16653 22053;
  G2 XOR 16842 16653 22051; G2 AND 22051 16946 21925; G2 XOR 21988 21925 2774; G2 XOR 16947 21925 8999;
  G2 XOR 2774 16948 21800; G2 XOR 2712 16653 22052; G2 XOR 22052 21925 9000; G2 AND 9000 8999 8998;
  G2 XOR 8998 21925 21926; G2 XOR 22053 21926 8997; G2 XOR 21989 21926 2773; G2 XOR 16948 21926 8996;
  G2 AND 8997 8996 8995; G2 XOR 8995 21926 21927; G2 XOR 16949 21927 8993; G2 XOR 22054 21927 8994;
  G2 AND 8994 8993 8992; G2 XOR 8992 21927 21928; G2 XOR 21991 21928 2771; G2 XOR 16950 21928 8990;
  G2 XOR 21990 21927 2772; G2 XOR 2773 16949 21801; G2 XOR 2772 16950 21802; G2 XOR 2771 16951 21803;
  G2 XOR 2709 16653 22055; G2 XOR 22055 21928 8991; G2 AND 8991 8990 8989; G2 XOR 8989 21928 21929;
  G2 XOR 21992 21929 2770; G2 XOR 22056 21929 8988; G2 XOR 16951 21929 8987; G2 AND 8988 8987 8986;
  G2 XOR 8986 21929 21930; G2 XOR 21993 21930 2769; G2 XOR 16952 21930 8984; G2 XOR 2770 16952 21804;
  G2 XOR 2769 16953 21805; G2 XOR 2704 16653 22060; G2 XOR 2705 16653 22059; G2 XOR 2707 16653 22057;
  G2 XOR 22057 21930 8985; G2 AND 8985 8984 8983; G2 XOR 8983 21930 21931; G2 XOR 21994 21931 2768;
  G2 XOR 16953 21931 8981; G2 XOR 2768 16954 21806; G2 XOR 2706 16653 22058; G2 XOR 22058 21931 8982;
  G2 AND 8982 8981 8980; G2 XOR 8980 21931 21932; G2 XOR 22059 21932 8979; G2 XOR 21995 21932 2767;
  G2 XOR 16954 21932 8978; G2 AND 8979 8978 8977; G2 XOR 8977 21932 21933; G2 XOR 16955 21933 8975;
  G2 XOR 22060 21933 8976; G2 AND 8976 8975 8974; G2 XOR 8974 21933 21934; G2 XOR 21997 21934 2765;
  G2 XOR 16956 21934 8972; G2 XOR 21996 21933 2766; G2 XOR 2767 16955 21807; G2 XOR 2766 16956 21808;
  G2 XOR 2765 16957 21809; G2 XOR 2703 16653 22061; G2 XOR 22061 21934 8973; G2 AND 8973 8972 8971;
  G2 XOR 8971 21934 21935; G2 XOR 21998 21935 2764; G2 XOR 22062 21935 8970; G2 XOR 16957 21935 8969;
  G2 AND 8970 8969 8968; G2 XOR 8968 21935 21936; G2 XOR 21999 21936 2763; G2 XOR 16958 21936 8966;
  G2 XOR 2764 16958 21810; G2 XOR 2763 16959 21811; G2 XOR 2698 16653 22066; G2 XOR 2699 16653 22065;
  G2 XOR 2701 16653 22063; G2 XOR 22063 21936 8967; G2 AND 8967 8966 8965; G2 XOR 8965 21936 21937;
  G2 XOR 22000 21937 2762; G2 XOR 16959 21937 8963; G2 XOR 2762 16960 21812; G2 XOR 2700 16653 22064;
  G2 XOR 22064 21937 8964; G2 AND 8964 8963 8962; G2 XOR 8962 21937 21938; G2 XOR 22065 21938 8961;
  G2 XOR 22001 21938 2761; G2 XOR 16960 21938 8960; G2 AND 8961 8960 8959; G2 XOR 8959 21938 21939;
  G2 XOR 16961 21939 8957; G2 XOR 22066 21939 8958; G2 AND 8958 8957 8956; G2 XOR 8956 21939 21940;
  G2 XOR 22003 21940 2759; G2 XOR 16962 21940 8954; G2 XOR 22002 21939 2760; G2 XOR 2761 16961 21813;
  G2 XOR 2760 16962 21814; G2 XOR 2759 16963 21815; G2 XOR 2697 16653 22067; G2 XOR 22067 21940 8955;
  G2 AND 8955 8954 8953; G2 XOR 8953 21940 21941; G2 XOR 22004 21941 2758; G2 XOR 22068 21941 8952;
  G2 XOR 16963 21941 8951; G2 AND 8952 8951 8950; G2 XOR 8950 21941 21942; G2 XOR 22005 21942 2757;
  G2 XOR 16964 21942 8948; G2 XOR 2758 16964 21816; G2 XOR 2757 16965 21817; G2 XOR 2692 16653 22072;
  G2 XOR 2693 16653 22071; G2 XOR 2695 16653 22069; G2 XOR 22069 21942 8949; G2 AND 8949 8948 8947;
  G2 XOR 8947 21942 21943; G2 XOR 22006 21943 2756; G2 XOR 16965 21943 8945; G2 XOR 2756 16966 21818;
  G2 XOR 2694 16653 22070; G2 XOR 22070 21943 8946; G2 AND 8946 8945 8944; G2 XOR 8944 21943 21944;
  G2 XOR 22071 21944 8943; G2 XOR 22007 21944 2755; G2 XOR 16966 21944 8942; G2 AND 8943 8942 8941;
  G2 XOR 8941 21944 21945; G2 XOR 16967 21945 8939; G2 XOR 22072 21945 8940; G2 AND 8940 8939 8938;
  G2 XOR 8938 21945 21946; G2 XOR 22009 21946 2753; G2 XOR 16968 21946 8936; G2 XOR 22008 21945 2754;
  G2 XOR 2755 16967 21819; G2 XOR 2754 16968 21820; G2 XOR 2753 16969 21821; G2 XOR 2691 16653 22073;
  G2 XOR 22073 21946 8937; G2 AND 8937 8936 8935; G2 XOR 8935 21946 21947; G2 XOR 22010 21947 2752;
  G2 XOR 22074 21947 8934; G2 XOR 16969 21947 8933; G2 AND 8934 8933 8932; G2 XOR 8932 21947 21948;
  G2 XOR 22011 21948 2751; G2 XOR 16970 21948 8930; G2 XOR 2752 16970 21822; G2 XOR 2751 16971 21823;
  G2 XOR 2686 16653 22078; G2 XOR 2687 16653 22077; G2 XOR 2689 16653 22075; G2 XOR 22075 21948 8931;
  G2 AND 8931 8930 8929; G2 XOR 8929 21948 21949; G2 XOR 22012 21949 2750; G2 XOR 16971 21949 8927;
  G2 XOR 2750 16972 21824; G2 XOR 2688 16653 22076; G2 XOR 22076 21949 8928; G2 AND 8928 8927 8926;
  G2 XOR 8926 21949 21950; G2 XOR 22013 21950 2749; G2 XOR 16972 21950 8924; G2 XOR 22077 21950 8925;
  G2 AND 8925 8924 8923; G2 XOR 8923 21950 21951; G2 XOR 22078 21951 8922; G2 XOR 22014 21951 2748;
  G2 XOR 16973 21951 8921; G2 AND 8922 8921 8920; G2 XOR 8920 21951 21952; G2 XOR 16974 21952 8918;
  G2 XOR 22015 21952 2747; G2 XOR 2749 16973 21825; G2 XOR 2748 16974 21826; G2 XOR 2747 16975 21827;
  G2 XOR 2685 16653 22079; G2 XOR 22079 21952 8919; G2 AND 8919 8918 8917; G2 XOR 8917 21952 21953;
  G2 XOR 22016 21953 2746; G2 XOR 16975 21953 8915; G2 XOR 22080 21953 8916; G2 AND 8916 8915 8914;
  G2 XOR 8914 21953 21954; G2 XOR 16976 21954 8912; G2 XOR 2746 16976 21828; G2 XOR 22017 21954 2745;
  G2 XOR 2745 16977 21829; G2 XOR 2680 16653 22084; G2 XOR 2681 16653 22083; G2 XOR 2683 16653 22081;
  G2 XOR 22081 21954 8913; G2 AND 8913 8912 8911; G2 XOR 8911 21954 21955; G2 XOR 22018 21955 2744;
  G2 XOR 16977 21955 8909; G2 XOR 2744 16978 21830; G2 XOR 2682 16653 22082; G2 XOR 22082 21955 8910;
  G2 AND 8910 8909 8908; G2 XOR 8908 21955 21956; G2 XOR 22083 21956 8907; G2 XOR 22019 21956 2743;
  G2 XOR 2743 16979 21831; G2 XOR 16978 21956 8906; G2 AND 8907 8906 8905; G2 XOR 8905 21956 21957;
  G2 XOR 22020 21957 2742; G2 XOR 2742 16980 21832; G2 XOR 16979 21957 8903; G2 XOR 22084 21957 8904;
  G2 AND 8904 8903 8902; G2 XOR 8902 21957 21958; G2 XOR 16980 21958 8900; G2 XOR 22021 21958 2741;
  G2 XOR 2741 16981 21833; G2 XOR 2679 16653 22085; G2 XOR 22085 21958 8901; G2 AND 8901 8900 8899;
  G2 XOR 8899 21958 21959; G2 XOR 22022 21959 2740; G2 XOR 22086 21959 8898; G2 XOR 2740 16982 21834;
  G2 XOR 16981 21959 8897; G2 AND 8898 8897 8896; G2 XOR 8896 21959 21960; G2 XOR 22023 21960 2739;
  G2 XOR 16982 21960 8894; G2 XOR 2739 16983 21835; G2 XOR 2674 16653 22090; G2 XOR 2675 16653 22089;
  G2 XOR 2677 16653 22087; G2 XOR 22087 21960 8895; G2 AND 8895 8894 8893; G2 XOR 8893 21960 21961;
  G2 XOR 22024 21961 2738; G2 XOR 16983 21961 8891; G2 XOR 2738 16984 21836; G2 XOR 2676 16653 22088;
  G2 XOR 22088 21961 8892; G2 AND 8892 8891 8890; G2 XOR 8890 21961 21962; G2 XOR 22025 21962 2737;
  G2 XOR 16984 21962 8888; G2 XOR 2737 16985 21837; G2 XOR 22089 21962 8889; G2 AND 8889 8888 8887;
  G2 XOR 8887 21962 21963; G2 XOR 22026 21963 2736; G2 XOR 16985 21963 8885; G2 XOR 22090 21963 8886;
  G2 XOR 2736 16986 21838; G2 AND 8886 8885 8884; G2 XOR 8884 21963 21964; G2 XOR 16986 21964 8882;
  G2 XOR 22027 21964 2735; G2 XOR 2735 16987 21839; G2 XOR 2673 16653 22091; G2 XOR 22091 21964 8883;
  G2 AND 8883 8882 8881; G2 XOR 8881 21964 21965; G2 XOR 22028 21965 2734; G2 XOR 22092 21965 8880;
  G2 XOR 16987 21965 8879; G2 AND 8880 8879 8878; G2 XOR 2734 16988 21840; G2 XOR 8878 21965 21966;
  G2 XOR 22029 21966 2733; G2 XOR 2733 16989 21841; G2 XOR 16988 21966 8876; G2 XOR 2668 16653 22096;
  G2 XOR 2669 16653 22095; G2 XOR 2671 16653 22093; G2 XOR 22093 21966 8877; G2 AND 8877 8876 8875;
  G2 XOR 8875 21966 21967; G2 XOR 22030 21967 2732; G2 XOR 16989 21967 8873; G2 XOR 2732 16990 21842;
  G2 XOR 2670 16653 22094; G2 XOR 22094 21967 8874; G2 AND 8874 8873 8872; G2 XOR 8872 21967 21968;
  G2 XOR 22095 21968 8871; G2 XOR 22031 21968 2731; G2 XOR 2731 16991 21843; G2 XOR 16990 21968 8870;
  G2 AND 8871 8870 8869; G2 XOR 8869 21968 21969; G2 XOR 22032 21969 2730; G2 XOR 16991 21969 8867;
  G2 XOR 2730 16992 21844; G2 XOR 22096 21969 8868; G2 AND 8868 8867 8866; G2 XOR 8866 21969 21970;
  G2 XOR 22033 21970 2729; G2 XOR 2729 16993 21845; G2 XOR 16992 21970 8864; G2 XOR 2667 16653 22097;
  G2 XOR 22097 21970 8865; G2 AND 8865 8864 8863; G2 XOR 8863 21970 21971; G2 XOR 22034 21971 2728;
  G2 XOR 22098 21971 8862; G2 XOR 2728 16994 21846; G2 XOR 16993 21971 8861; G2 AND 8862 8861 8860;
  G2 XOR 8860 21971 21972; G2 XOR 22035 21972 2727; G2 XOR 16994 21972 8858; G2 XOR 2727 16995 21847;
  G2 XOR 2662 16653 22102; G2 XOR 2663 16653 22101; G2 XOR 2665 16653 22099; G2 XOR 22099 21972 8859;
  G2 AND 8859 8858 8857; G2 XOR 8857 21972 21973; G2 XOR 16995 21973 8855; G2 XOR 22036 21973 2726;
  G2 XOR 2726 16996 21848; G2 XOR 2664 16653 22100; G2 XOR 22100 21973 8856; G2 AND 8856 8855 8854;
  G2 XOR 8854 21973 21974; G2 XOR 22037 21974 2725; G2 XOR 22101 21974 8853; G2 XOR 16996 21974 8852;
  G2 AND 8853 8852 8851; G2 XOR 8851 21974 21975; G2 XOR 16997 21975 8849; G2 XOR 22038 21975 2724;
  G2 XOR 22102 21975 8850; G2 AND 8850 8849 8848; G2 XOR 2725 16997 21849; G2 XOR 2724 16998 21850;
  G2 XOR 8848 21975 21976; G2 XOR 22039 21976 2723; G2 XOR 2723 16999 21851; G2 XOR 16998 21976 8846;
  G2 XOR 2661 16653 22103; G2 XOR 22103 21976 8847; G2 AND 8847 8846 8845; G2 XOR 2660 16653 22104;
  G2 AND 16653 4535 17537; G2 XOR 2655 16653 22109; G2 XOR 8845 21976 21977; G2 XOR 22104 21977 8844;
  G2 XOR 16999 21977 8843; G2 XOR 22040 21977 2722; G2 XOR 2722 17000 21852; G2 AND 8844 8843 8842;
  G2 XOR 8842 21977 21978; G2 XOR 17000 21978 8840; G2 XOR 22041 21978 2721; G2 XOR 2721 17001 21853;
  G2 XOR 2659 16653 22105; G2 XOR 22105 21978 8841; G2 AND 8841 8840 8839; G2 XOR 8839 21978 21979;
  G2 XOR 17001 21979 8837; G2 XOR 22042 21979 2720; G2 XOR 2720 17002 21854; G2 XOR 22106 21979 8838;
  G2 AND 8838 8837 8836; G2 XOR 8836 21979 21980; G2 XOR 17002 21980 8834; G2 XOR 22107 21980 8835;
  G2 AND 8835 8834 8833; G2 XOR 22043 21980 2719; G2 XOR 2719 17003 21855; G2 XOR 8833 21980 21981;
  G2 XOR 22108 21981 8832; G2 XOR 22044 21981 2718; G2 XOR 2718 17004 21856; G2 XOR 17003 21981 8831;
  G2 AND 8832 8831 8830; G2 XOR 8830 21981 21982; G2 XOR 22109 21982 8829; G2 XOR 22045 21982 2717;
  G2 XOR 2717 17005 21857; G2 XOR 17004 21982 8828; G2 AND 8829 8828 8827; G2 XOR 8827 21982 21983;
  G2 XOR 22046 21983 2716; G2 XOR 17005 21983 8825; G2 XOR 22110 21983 8826; G2 AND 8826 8825 8824;
  G2 XOR 2716 17006 21858; G2 XOR 8824 21983 21984; G2 XOR 22111 21984 8823; G2 XOR 22047 21984 2715;
  G2 XOR 2715 17007 21859; G2 XOR 17006 21984 8822; G2 AND 8823 8822 8821; G2 XOR 8821 21984 21985;
  G2 XOR 22112 21985 8820; G2 XOR 22048 21985 2714; G2 XOR 2714 17008 21860; G2 XOR 17007 21985 8819;
  G2 AND 8820 8819 8818; G2 XOR 8818 21985 21986; G2 XOR 22113 21986 8817; G2 XOR 22049 21986 2713;
  G2 XOR 2713 17009 21861; G2 XOR 17008 21986 8816; G2 AND 8817 8816 8815; G2 XOR 8815 21986 21987;
  G2 XOR 22050 21987 170; G1 INV 170 16652; G2 XOR 2716 16652 21922; G2 XOR 16841 16652 21862;
  G2 AND 21862 16946 21736; G2 XOR 2770 16652 21868; G2 XOR 2764 16652 21874; G2 XOR 2758 16652 21880;
  G2 XOR 2752 16652 21886; G2 XOR 2746 16652 21892; G2 XOR 2740 16652 21898; G2 XOR 2734 16652 21904;
  G2 XOR 2728 16652 21910; G2 XOR 21799 21736 2837; G2 XOR 2719 16652 21919; G2 XOR 16947 21736 8813;
  G2 XOR 2721 16652 21917; G2 XOR 2714 16652 21924; G2 XOR 2720 16652 21918; G2 XOR 2718 16652 21920;
  G2 XOR 2717 16652 21921; G2 XOR 2715 16652 21923; G2 XOR 2837 16948 21611; G2 XOR 2772 16652 21866;
  G2 XOR 2773 16652 21865; G2 XOR 2775 16652 21863; G2 XOR 21863 21736 8814; G2 AND 8814 8813 8812;
  G2 XOR 8812 21736 21737; G2 XOR 21800 21737 2836; G2 XOR 16948 21737 8810; G2 XOR 2836 16949 21612;
  G2 XOR 2774 16652 21864; G2 XOR 21864 21737 8811; G2 AND 8811 8810 8809; G2 XOR 8809 21737 21738;
  G2 XOR 21801 21738 2835; G2 XOR 16949 21738 8807; G2 XOR 21865 21738 8808; G2 AND 8808 8807 8806;
  G2 XOR 8806 21738 21739; G2 XOR 21802 21739 2834; G2 XOR 16950 21739 8804; G2 XOR 21866 21739 8805;
  G2 AND 8805 8804 8803; G2 XOR 8803 21739 21740; G2 XOR 21803 21740 2833; G2 XOR 16951 21740 8801;
  G2 XOR 2835 16950 21613; G2 XOR 2834 16951 21614; G2 XOR 2833 16952 21615; G2 XOR 2771 16652 21867;
  G2 XOR 21867 21740 8802; G2 XOR 2766 16652 21872; G2 XOR 2767 16652 21871; G2 XOR 2769 16652 21869;
  G2 XOR 2768 16652 21870; G2 XOR 2765 16652 21873; G2 XOR 2760 16652 21878; G2 XOR 2761 16652 21877;
  G2 XOR 2763 16652 21875; G2 XOR 2762 16652 21876; G2 XOR 2759 16652 21879; G2 XOR 2754 16652 21884;
  G2 XOR 2755 16652 21883; G2 XOR 2757 16652 21881; G2 XOR 2756 16652 21882; G2 XOR 2753 16652 21885;
  G2 XOR 2748 16652 21890; G2 XOR 2749 16652 21889; G2 XOR 2751 16652 21887; G2 XOR 2750 16652 21888;
  G2 XOR 2747 16652 21891; G2 XOR 2742 16652 21896; G2 XOR 2743 16652 21895; G2 XOR 2745 16652 21893;
  G2 XOR 2744 16652 21894; G2 XOR 2741 16652 21897; G2 XOR 2736 16652 21902; G2 XOR 2737 16652 21901;
  G2 XOR 2739 16652 21899; G2 XOR 2738 16652 21900; G2 XOR 2735 16652 21903; G2 XOR 2730 16652 21908;
  G2 XOR 2731 16652 21907; G2 XOR 2733 16652 21905; G2 XOR 2732 16652 21906; G2 XOR 2729 16652 21909;
  G2 XOR 2724 16652 21914; G2 XOR 2725 16652 21913; G2 XOR 2727 16652 21911; G2 XOR 2726 16652 21912;
  G2 XOR 2723 16652 21915; G2 AND 8802 8801 8800; G2 XOR 8800 21740 21741; G2 XOR 21804 21741 2832;
  G2 XOR 16952 21741 8798; G2 XOR 21868 21741 8799; G2 AND 8799 8798 8797; G2 XOR 8797 21741 21742;
  G2 XOR 21805 21742 2831; G2 XOR 21869 21742 8796; G2 XOR 16953 21742 8795; G2 AND 8796 8795 8794;
  G2 XOR 8794 21742 21743; G2 XOR 21870 21743 8793; G2 XOR 21806 21743 2830; G2 XOR 16954 21743 8792;
  G2 AND 8793 8792 8791; G2 XOR 8791 21743 21744; G2 XOR 16955 21744 8789; G2 XOR 21871 21744 8790;
  G2 AND 8790 8789 8788; G2 XOR 8788 21744 21745; G2 XOR 21808 21745 2828; G2 XOR 16956 21745 8786;
  G2 XOR 21872 21745 8787; G2 AND 8787 8786 8785; G2 XOR 2832 16953 21616; G2 XOR 2831 16954 21617;
  G2 XOR 2830 16955 21618; G2 XOR 2828 16957 21620; G2 AND 16652 4535 17536; G2 XOR 8785 21745 21746;
  G2 XOR 21809 21746 2827; G2 XOR 21873 21746 8784; G2 XOR 16957 21746 8783; G2 XOR 2827 16958 21621;
  G2 AND 8784 8783 8782; G2 XOR 8782 21746 21747; G2 XOR 21810 21747 2826; G2 XOR 16958 21747 8780;
  G2 XOR 2826 16959 21622; G2 XOR 21874 21747 8781; G2 AND 8781 8780 8779; G2 XOR 8779 21747 21748;
  G2 XOR 21811 21748 2825; G2 XOR 21875 21748 8778; G2 XOR 2825 16960 21623; G2 XOR 16959 21748 8777;
  G2 AND 8778 8777 8776; G2 XOR 8776 21748 21749; G2 XOR 21812 21749 2824; G2 XOR 16960 21749 8774;
  G2 XOR 2824 16961 21624; G2 XOR 21876 21749 8775; G2 AND 8775 8774 8773; G2 XOR 8773 21749 21750;
  G2 XOR 21813 21750 2823; G2 XOR 21877 21750 8772; G2 XOR 2823 16962 21625; G2 XOR 16961 21750 8771;
  G2 AND 8772 8771 8770; G2 XOR 8770 21750 21751; G2 XOR 21878 21751 8769; G2 XOR 16962 21751 8768;
  G2 AND 8769 8768 8767; G2 XOR 8767 21751 21752; G2 XOR 21879 21752 8766; G2 XOR 16963 21752 8765;
  G2 XOR 21814 21751 2822; G2 XOR 2822 16963 21626; G2 AND 8766 8765 8764; G2 XOR 8764 21752 21753;
  G2 XOR 21880 21753 8763; G2 XOR 21816 21753 2820; G2 XOR 16964 21753 8762; G2 AND 8763 8762 8761;
  G2 XOR 8761 21753 21754; G2 XOR 21817 21754 2819; G2 XOR 16965 21754 8759; G2 XOR 21881 21754 8760;
  G2 AND 8760 8759 8758; G2 XOR 2820 16965 21628; G2 XOR 2819 16966 21629; G2 XOR 8758 21754 21755;
  G2 XOR 16966 21755 8756; G2 XOR 21818 21755 2818; G2 XOR 21882 21755 8757; G2 AND 8757 8756 8755;
  G2 XOR 8755 21755 21756; G2 XOR 21819 21756 2817; G2 XOR 16967 21756 8753; G2 XOR 21883 21756 8754;
  G2 AND 8754 8753 8752; G2 XOR 8752 21756 21757; G2 XOR 16968 21757 8750; G2 XOR 21884 21757 8751;
  G2 AND 8751 8750 8749; G2 XOR 2818 16967 21630; G2 XOR 2817 16968 21631; G2 XOR 21820 21757 2816;
  G2 XOR 2816 16969 21632; G2 XOR 8749 21757 21758; G2 XOR 21821 21758 2815; G2 XOR 21885 21758 8748;
  G2 XOR 16969 21758 8747; G2 AND 8748 8747 8746; G2 XOR 8746 21758 21759; G2 XOR 21822 21759 2814;
  G2 XOR 21886 21759 8745; G2 XOR 16970 21759 8744; G2 AND 8745 8744 8743; G2 XOR 8743 21759 21760;
  G2 XOR 16971 21760 8741; G2 XOR 21823 21760 2813; G2 XOR 21887 21760 8742; G2 AND 8742 8741 8740;
  G2 XOR 8740 21760 21761; G2 XOR 16972 21761 8738; G2 XOR 2815 16970 21633; G2 XOR 2814 16971 21634;
  G2 XOR 2813 16972 21635; G2 XOR 21888 21761 8739; G2 AND 8739 8738 8737; G2 XOR 8737 21761 21762;
  G2 XOR 21889 21762 8736; G2 XOR 16973 21762 8735; G2 AND 8736 8735 8734; G2 XOR 8734 21762 21763;
  G2 XOR 21826 21763 2810; G2 XOR 21890 21763 8733; G2 XOR 16974 21763 8732; G2 AND 8733 8732 8731;
  G2 XOR 2810 16975 21638; G2 XOR 21824 21761 2812; G2 XOR 2812 16973 21636; G2 XOR 8731 21763 21764;
  G2 XOR 21827 21764 2809; G2 XOR 21891 21764 8730; G2 XOR 16975 21764 8729; G2 AND 8730 8729 8728;
  G2 XOR 8728 21764 21765; G2 XOR 21828 21765 2808; G2 XOR 21892 21765 8727; G2 XOR 2809 16976 21639;
  G2 XOR 2808 16977 21640; G2 XOR 16976 21765 8726; G2 AND 8727 8726 8725; G2 XOR 8725 21765 21766;
  G2 XOR 21893 21766 8724; G2 XOR 16977 21766 8723; G2 XOR 21829 21766 2807; G2 AND 8724 8723 8722;
  G2 XOR 8722 21766 21767; G2 XOR 21830 21767 2806; G2 XOR 21894 21767 8721; G2 XOR 16978 21767 8720;
  G2 AND 8721 8720 8719; G2 XOR 8719 21767 21768; G2 XOR 16979 21768 8717; G2 XOR 21895 21768 8718;
  G2 AND 8718 8717 8716; G2 XOR 8716 21768 21769; G2 XOR 21896 21769 8715; G2 XOR 2807 16978 21641;
  G2 XOR 2806 16979 21642; G2 XOR 21832 21769 2804; G2 XOR 2804 16981 21644; G2 XOR 21831 21768 2805;
  G2 XOR 2805 16980 21643; G2 XOR 16980 21769 8714; G2 AND 8715 8714 8713; G2 XOR 8713 21769 21770;
  G2 XOR 21897 21770 8712; G2 XOR 16981 21770 8711; G2 XOR 21833 21770 2803; G2 XOR 2803 16982 21645;
  G2 XOR 21825 21762 2811; G2 XOR 2811 16974 21637; G2 XOR 21815 21752 2821; G2 XOR 2821 16964 21627;
  G2 XOR 21807 21744 2829; G2 XOR 2829 16956 21619; G2 AND 8712 8711 8710; G2 XOR 8710 21770 21771;
  G2 XOR 21834 21771 2802; G2 XOR 16982 21771 8708; G2 XOR 2802 16983 21646; G2 XOR 21898 21771 8709;
  G2 AND 8709 8708 8707; G2 XOR 8707 21771 21772; G2 XOR 21899 21772 8706; G2 XOR 16983 21772 8705;
  G2 XOR 21835 21772 2801; G2 AND 8706 8705 8704; G2 XOR 2801 16984 21647; G2 XOR 8704 21772 21773;
  G2 XOR 16984 21773 8702; G2 XOR 21900 21773 8703; G2 AND 8703 8702 8701; G2 XOR 21836 21773 2800;
  G2 XOR 8701 21773 21774; G2 XOR 16985 21774 8699; G2 XOR 21901 21774 8700; G2 AND 8700 8699 8698;
  G2 XOR 21837 21774 2799; G2 XOR 8698 21774 21775; G2 XOR 21838 21775 2798; G2 XOR 21902 21775 8697;
  G2 XOR 16986 21775 8696; G2 AND 8697 8696 8695; G2 XOR 8695 21775 21776; G2 XOR 21839 21776 2797;
  G2 XOR 21903 21776 8694; G2 XOR 2800 16985 21648; G2 XOR 2799 16986 21649; G2 XOR 2798 16987 21650;
  G2 XOR 2797 16988 21651; G2 XOR 16987 21776 8693; G2 AND 8694 8693 8692; G2 XOR 8692 21776 21777;
  G2 XOR 21840 21777 2796; G2 XOR 2796 16989 21652; G2 XOR 16988 21777 8690; G2 XOR 21904 21777 8691;
  G2 AND 8691 8690 8689; G2 XOR 8689 21777 21778; G2 XOR 21841 21778 2795; G2 XOR 21905 21778 8688;
  G2 XOR 16989 21778 8687; G2 XOR 2795 16990 21653; G2 AND 8688 8687 8686; G2 XOR 8686 21778 21779;
  G2 XOR 21906 21779 8685; G2 XOR 21842 21779 2794; G2 XOR 2794 16991 21654; G2 XOR 16990 21779 8684;
  G2 AND 8685 8684 8683; G2 XOR 8683 21779 21780; G2 XOR 21843 21780 2793; G2 XOR 16991 21780 8681;
  G2 XOR 2793 16992 21655; G2 XOR 21907 21780 8682; G2 AND 8682 8681 8680; G2 XOR 8680 21780 21781;
  G2 XOR 21844 21781 2792; G2 XOR 16992 21781 8678; G2 XOR 2792 16993 21656; G2 XOR 21908 21781 8679;
  G2 AND 8679 8678 8677; G2 XOR 8677 21781 21782; G2 XOR 21909 21782 8676; G2 XOR 21845 21782 2791;
  G2 XOR 16993 21782 8675; G2 AND 8676 8675 8674; G2 XOR 8674 21782 21783; G2 XOR 21846 21783 2790;
  G2 XOR 16994 21783 8672; G2 XOR 21910 21783 8673; G2 AND 8673 8672 8671; G2 XOR 8671 21783 21784;
  G2 XOR 21847 21784 2789; G2 XOR 21911 21784 8670; G2 XOR 2791 16994 21657; G2 XOR 2790 16995 21658;
  G2 XOR 2789 16996 21659; G2 XOR 16995 21784 8669; G2 AND 8670 8669 8668; G2 XOR 8668 21784 21785;
  G2 XOR 21848 21785 2788; G2 XOR 21912 21785 8667; G2 XOR 16996 21785 8666; G2 AND 8667 8666 8665;
  G2 XOR 8665 21785 21786; G2 XOR 16997 21786 8663; G2 XOR 21913 21786 8664; G2 AND 8664 8663 8662;
  G2 XOR 8662 21786 21787; G2 XOR 16998 21787 8660; G2 XOR 21850 21787 2786; G2 XOR 21914 21787 8661;
  G2 AND 8661 8660 8659; G2 XOR 8659 21787 21788; G2 XOR 21915 21788 8658; G2 XOR 2788 16997 21660;
  G2 XOR 2786 16999 21662; G2 XOR 21851 21788 2785; G2 XOR 2785 17000 21663; G2 XOR 21849 21786 2787;
  G2 XOR 2787 16998 21661; G2 XOR 16999 21788 8657; G2 AND 8658 8657 8656; G2 XOR 8656 21788 21789;
  G2 XOR 21852 21789 2784; G2 XOR 17000 21789 8654; G2 XOR 2784 17001 21664; G2 XOR 2722 16652 21916;
  G2 XOR 21916 21789 8655; G2 AND 8655 8654 8653; G2 XOR 8653 21789 21790; G2 XOR 17001 21790 8651;
  G2 XOR 21853 21790 2783; G2 XOR 2783 17002 21665; G2 XOR 21917 21790 8652; G2 AND 8652 8651 8650;
  G2 XOR 8650 21790 21791; G2 XOR 21854 21791 2782; G2 XOR 21918 21791 8649; G2 XOR 17002 21791 8648;
  G2 AND 8649 8648 8647; G2 XOR 8647 21791 21792; G2 XOR 21855 21792 2781; G2 XOR 17003 21792 8645;
  G2 XOR 2781 17004 21667; G2 XOR 2782 17003 21666; G2 XOR 21919 21792 8646; G2 AND 8646 8645 8644;
  G2 XOR 8644 21792 21793; G2 XOR 21920 21793 8643; G2 XOR 21856 21793 2780; G2 XOR 2780 17005 21668;
  G2 XOR 17004 21793 8642; G2 AND 8643 8642 8641; G2 XOR 8641 21793 21794; G2 XOR 21857 21794 2779;
  G2 XOR 2779 17006 21669; G2 XOR 21921 21794 8640; G2 XOR 17005 21794 8639; G2 AND 8640 8639 8638;
  G2 XOR 8638 21794 21795; G2 XOR 21858 21795 2778; G2 XOR 17006 21795 8636; G2 XOR 21922 21795 8637;
  G2 AND 8637 8636 8635; G2 XOR 2778 17007 21670; G2 XOR 8635 21795 21796; G2 XOR 21923 21796 8634;
  G2 XOR 21859 21796 2777; G2 XOR 2777 17008 21671; G2 XOR 17007 21796 8633; G2 AND 8634 8633 8632;
  G2 XOR 8632 21796 21797; G2 XOR 17008 21797 8630; G2 XOR 21924 21797 8631; G2 AND 8631 8630 8629;
  G2 XOR 8629 21797 21798; G2 XOR 21860 21797 2776; G2 XOR 2776 17009 21672; G2 XOR 21861 21798 171;
  G1 INV 171 16651; G2 XOR 2777 16651 21735; G2 XOR 2783 16651 21729; G2 XOR 16840 16651 21673;
  G2 AND 21673 16946 21547; G2 XOR 2833 16651 21679; G2 XOR 2827 16651 21685; G2 XOR 2821 16651 21691;
  G2 XOR 2815 16651 21697; G2 XOR 2809 16651 21703; G2 XOR 2803 16651 21709; G2 XOR 2797 16651 21715;
  G2 XOR 2791 16651 21721; G2 XOR 2781 16651 21731; G2 XOR 2779 16651 21733; G2 XOR 21610 21547 2900;
  G2 XOR 16947 21547 8627; G2 XOR 2778 16651 21734; G2 XOR 2782 16651 21730; G2 XOR 2900 16948 21422;
  G2 XOR 2835 16651 21677; G2 XOR 2836 16651 21676; G2 XOR 2838 16651 21674; G2 XOR 21674 21547 8628;
  G2 AND 8628 8627 8626; G2 XOR 8626 21547 21548; G2 XOR 16948 21548 8624; G2 XOR 2837 16651 21675;
  G2 XOR 21675 21548 8625; G2 AND 8625 8624 8623; G2 XOR 8623 21548 21549; G2 XOR 21612 21549 2898;
  G2 XOR 16949 21549 8621; G2 XOR 21676 21549 8622; G2 AND 8622 8621 8620; G2 XOR 2898 16950 21424;
  G2 XOR 2834 16651 21678; G2 XOR 2829 16651 21683; G2 XOR 2830 16651 21682; G2 XOR 2832 16651 21680;
  G2 XOR 2831 16651 21681; G2 XOR 2828 16651 21684; G2 XOR 2823 16651 21689; G2 XOR 2824 16651 21688;
  G2 XOR 2826 16651 21686; G2 XOR 2825 16651 21687; G2 XOR 2822 16651 21690; G2 XOR 2817 16651 21695;
  G2 XOR 2818 16651 21694; G2 XOR 2820 16651 21692; G2 XOR 2819 16651 21693; G2 XOR 2816 16651 21696;
  G2 XOR 2811 16651 21701; G2 XOR 2812 16651 21700; G2 XOR 2814 16651 21698; G2 XOR 2813 16651 21699;
  G2 XOR 2810 16651 21702; G2 XOR 2805 16651 21707; G2 XOR 2806 16651 21706; G2 XOR 2808 16651 21704;
  G2 XOR 2807 16651 21705; G2 XOR 2804 16651 21708; G2 XOR 2799 16651 21713; G2 XOR 2800 16651 21712;
  G2 XOR 2802 16651 21710; G2 XOR 2801 16651 21711; G2 XOR 2798 16651 21714; G2 XOR 2793 16651 21719;
  G2 XOR 2794 16651 21718; G2 XOR 2796 16651 21716; G2 XOR 2795 16651 21717; G2 XOR 2792 16651 21720;
  G2 XOR 2787 16651 21725; G2 XOR 2788 16651 21724; G2 XOR 2790 16651 21722; G2 XOR 2789 16651 21723;
  G2 XOR 2786 16651 21726; G2 XOR 2785 16651 21727; G2 AND 16651 4535 17535; G2 XOR 2780 16651 21732;
  G2 XOR 21611 21548 2899; G2 XOR 2899 16949 21423; G2 XOR 8620 21549 21550; G2 XOR 21613 21550 2897;
  G2 XOR 21677 21550 8619; G2 XOR 16950 21550 8618; G2 XOR 2897 16951 21425; G2 AND 8619 8618 8617;
  G2 XOR 8617 21550 21551; G2 XOR 21614 21551 2896; G2 XOR 16951 21551 8615; G2 XOR 21678 21551 8616;
  G2 AND 8616 8615 8614; G2 XOR 8614 21551 21552; G2 XOR 21615 21552 2895; G2 XOR 21679 21552 8613;
  G2 XOR 16952 21552 8612; G2 AND 8613 8612 8611; G2 XOR 8611 21552 21553; G2 XOR 21680 21553 8610;
  G2 XOR 21616 21553 2894; G2 XOR 16953 21553 8609; G2 AND 8610 8609 8608; G2 XOR 8608 21553 21554;
  G2 XOR 16954 21554 8606; G2 XOR 21681 21554 8607; G2 AND 8607 8606 8605; G2 XOR 8605 21554 21555;
  G2 XOR 21618 21555 2892; G2 XOR 16955 21555 8603; G2 XOR 21682 21555 8604; G2 AND 8604 8603 8602;
  G2 XOR 21617 21554 2893; G2 XOR 8602 21555 21556; G2 XOR 21619 21556 2891; G2 XOR 21683 21556 8601;
  G2 XOR 16956 21556 8600; G2 AND 8601 8600 8599; G2 XOR 8599 21556 21557; G2 XOR 21620 21557 2890;
  G2 XOR 16957 21557 8597; G2 XOR 21684 21557 8598; G2 AND 8598 8597 8596; G2 XOR 8596 21557 21558;
  G2 XOR 21621 21558 2889; G2 XOR 21685 21558 8595; G2 XOR 2896 16952 21426; G2 XOR 2895 16953 21427;
  G2 XOR 2894 16954 21428; G2 XOR 2893 16955 21429; G2 XOR 2892 16956 21430; G2 XOR 2891 16957 21431;
  G2 XOR 2890 16958 21432; G2 XOR 2889 16959 21433; G2 XOR 16958 21558 8594; G2 AND 8595 8594 8593;
  G2 XOR 8593 21558 21559; G2 XOR 21622 21559 2888; G2 XOR 16959 21559 8591; G2 XOR 21686 21559 8592;
  G2 AND 8592 8591 8590; G2 XOR 8590 21559 21560; G2 XOR 21623 21560 2887; G2 XOR 21687 21560 8589;
  G2 XOR 16960 21560 8588; G2 AND 8589 8588 8587; G2 XOR 8587 21560 21561; G2 XOR 21688 21561 8586;
  G2 XOR 16961 21561 8585; G2 AND 8586 8585 8584; G2 XOR 21624 21561 2886; G2 XOR 2888 16960 21434;
  G2 XOR 2887 16961 21435; G2 XOR 2886 16962 21436; G2 XOR 8584 21561 21562; G2 XOR 21625 21562 2885;
  G2 XOR 21689 21562 8583; G2 XOR 16962 21562 8582; G2 AND 8583 8582 8581; G2 XOR 8581 21562 21563;
  G2 XOR 21690 21563 8580; G2 XOR 21626 21563 2884; G2 XOR 16963 21563 8579; G2 XOR 2885 16963 21437;
  G2 XOR 2884 16964 21438; G2 AND 8580 8579 8578; G2 XOR 8578 21563 21564; G2 XOR 21627 21564 2883;
  G2 XOR 21691 21564 8577; G2 XOR 16964 21564 8576; G2 AND 8577 8576 8575; G2 XOR 8575 21564 21565;
  G2 XOR 21692 21565 8574; G2 XOR 21628 21565 2882; G2 XOR 16965 21565 8573; G2 AND 8574 8573 8572;
  G2 XOR 8572 21565 21566; G2 XOR 21693 21566 8571; G2 XOR 2883 16965 21439; G2 XOR 2882 16966 21440;
  G2 XOR 16966 21566 8570; G2 AND 8571 8570 8569; G2 XOR 8569 21566 21567; G2 XOR 21630 21567 2880;
  G2 XOR 16967 21567 8567; G2 XOR 21694 21567 8568; G2 AND 8568 8567 8566; G2 XOR 8566 21567 21568;
  G2 XOR 21631 21568 2879; G2 XOR 21695 21568 8565; G2 XOR 16968 21568 8564; G2 XOR 2880 16968 21442;
  G2 XOR 2879 16969 21443; G2 XOR 21629 21566 2881; G2 XOR 2881 16967 21441; G2 AND 8565 8564 8563;
  G2 XOR 8563 21568 21569; G2 XOR 16969 21569 8561; G2 XOR 21696 21569 8562; G2 XOR 21632 21569 2878;
  G2 AND 8562 8561 8560; G2 XOR 8560 21569 21570; G2 XOR 16970 21570 8558; G2 XOR 21633 21570 2877;
  G2 XOR 21697 21570 8559; G2 XOR 2878 16970 21444; G2 XOR 2877 16971 21445; G2 AND 8559 8558 8557;
  G2 XOR 8557 21570 21571; G2 XOR 21634 21571 2876; G2 XOR 16971 21571 8555; G2 XOR 21698 21571 8556;
  G2 AND 8556 8555 8554; G2 XOR 8554 21571 21572; G2 XOR 16972 21572 8552; G2 XOR 21699 21572 8553;
  G2 XOR 2876 16972 21446; G2 XOR 21635 21572 2875; G2 XOR 2875 16973 21447; G2 AND 8553 8552 8551;
  G2 XOR 8551 21572 21573; G2 XOR 21700 21573 8550; G2 XOR 16973 21573 8549; G2 AND 8550 8549 8548;
  G2 XOR 8548 21573 21574; G2 XOR 21701 21574 8547; G2 XOR 16974 21574 8546; G2 AND 8547 8546 8545;
  G2 XOR 8545 21574 21575; G2 XOR 21702 21575 8544; G2 XOR 21638 21575 2872; G2 XOR 21636 21573 2874;
  G2 XOR 2874 16974 21448; G2 XOR 2872 16976 21450; G2 XOR 16975 21575 8543; G2 AND 8544 8543 8542;
  G2 XOR 8542 21575 21576; G2 XOR 21639 21576 2871; G2 XOR 21703 21576 8541; G2 XOR 2871 16977 21451;
  G2 XOR 16976 21576 8540; G2 AND 8541 8540 8539; G2 XOR 8539 21576 21577; G2 XOR 21640 21577 2870;
  G2 XOR 21704 21577 8538; G2 XOR 16977 21577 8537; G2 AND 8538 8537 8536; G2 XOR 8536 21577 21578;
  G2 XOR 21641 21578 2869; G2 XOR 16978 21578 8534; G2 XOR 21705 21578 8535; G2 AND 8535 8534 8533;
  G2 XOR 2870 16978 21452; G2 XOR 2869 16979 21453; G2 XOR 8533 21578 21579; G2 XOR 21706 21579 8532;
  G2 XOR 16979 21579 8531; G2 AND 8532 8531 8530; G2 XOR 8530 21579 21580; G2 XOR 21707 21580 8529;
  G2 XOR 16980 21580 8528; G2 XOR 21643 21580 2867; G2 XOR 2867 16981 21455; G2 XOR 21642 21579 2868;
  G2 XOR 2868 16980 21454; G2 XOR 21637 21574 2873; G2 XOR 2873 16975 21449; G2 AND 8529 8528 8527;
  G2 XOR 8527 21580 21581; G2 XOR 21644 21581 2866; G2 XOR 16981 21581 8525; G2 XOR 2866 16982 21456;
  G2 XOR 21708 21581 8526; G2 AND 8526 8525 8524; G2 XOR 8524 21581 21582; G2 XOR 21645 21582 2865;
  G2 XOR 2865 16983 21457; G2 XOR 21709 21582 8523; G2 XOR 16982 21582 8522; G2 AND 8523 8522 8521;
  G2 XOR 8521 21582 21583; G2 XOR 21646 21583 2864; G2 XOR 21710 21583 8520; G2 XOR 16983 21583 8519;
  G2 AND 8520 8519 8518; G2 XOR 8518 21583 21584; G2 XOR 21647 21584 2863; G2 XOR 21711 21584 8517;
  G2 XOR 2864 16984 21458; G2 XOR 2863 16985 21459; G2 XOR 16984 21584 8516; G2 AND 8517 8516 8515;
  G2 XOR 8515 21584 21585; G2 XOR 21712 21585 8514; G2 XOR 21648 21585 2862; G2 XOR 16985 21585 8513;
  G2 AND 8514 8513 8512; G2 XOR 8512 21585 21586; G2 XOR 21649 21586 2861; G2 XOR 21713 21586 8511;
  G2 XOR 16986 21586 8510; G2 AND 8511 8510 8509; G2 XOR 8509 21586 21587; G2 XOR 21714 21587 8508;
  G2 XOR 16987 21587 8507; G2 XOR 21650 21587 2860; G2 XOR 2862 16986 21460; G2 XOR 2861 16987 21461;
  G2 XOR 2860 16988 21462; G2 AND 8508 8507 8506; G2 XOR 8506 21587 21588; G2 XOR 16988 21588 8504;
  G2 XOR 21651 21588 2859; G2 XOR 21715 21588 8505; G2 AND 8505 8504 8503; G2 XOR 8503 21588 21589;
  G2 XOR 21716 21589 8502; G2 XOR 16989 21589 8501; G2 AND 8502 8501 8500; G2 XOR 21652 21589 2858;
  G2 XOR 2859 16989 21463; G2 XOR 2858 16990 21464; G2 XOR 8500 21589 21590; G2 XOR 21653 21590 2857;
  G2 XOR 21717 21590 8499; G2 XOR 2857 16991 21465; G2 XOR 16990 21590 8498; G2 AND 8499 8498 8497;
  G2 XOR 8497 21590 21591; G2 XOR 21718 21591 8496; G2 XOR 21654 21591 2856; G2 XOR 16991 21591 8495;
  G2 XOR 2856 16992 21466; G2 AND 8496 8495 8494; G2 XOR 8494 21591 21592; G2 XOR 21655 21592 2855;
  G2 XOR 2855 16993 21467; G2 XOR 21719 21592 8493; G2 XOR 16992 21592 8492; G2 AND 8493 8492 8491;
  G2 XOR 8491 21592 21593; G2 XOR 21720 21593 8490; G2 XOR 16993 21593 8489; G2 AND 8490 8489 8488;
  G2 XOR 8488 21593 21594; G2 XOR 16994 21594 8486; G2 XOR 21721 21594 8487; G2 AND 8487 8486 8485;
  G2 XOR 8485 21594 21595; G2 XOR 21722 21595 8484; G2 XOR 21658 21595 2852; G2 XOR 21657 21594 2853;
  G2 XOR 21656 21593 2854; G2 XOR 16995 21595 8483; G2 AND 8484 8483 8482; G2 XOR 8482 21595 21596;
  G2 XOR 21659 21596 2851; G2 XOR 21723 21596 8481; G2 XOR 2854 16994 21468; G2 XOR 2853 16995 21469;
  G2 XOR 2852 16996 21470; G2 XOR 2851 16997 21471; G2 XOR 16996 21596 8480; G2 AND 8481 8480 8479;
  G2 XOR 8479 21596 21597; G2 XOR 16997 21597 8477; G2 XOR 21660 21597 2850; G2 XOR 21724 21597 8478;
  G2 AND 8478 8477 8476; G2 XOR 8476 21597 21598; G2 XOR 21661 21598 2849; G2 XOR 21725 21598 8475;
  G2 XOR 16998 21598 8474; G2 AND 8475 8474 8473; G2 XOR 8473 21598 21599; G2 XOR 21662 21599 2848;
  G2 XOR 16999 21599 8471; G2 XOR 21726 21599 8472; G2 AND 8472 8471 8470; G2 XOR 8470 21599 21600;
  G2 XOR 21663 21600 2847; G2 XOR 17000 21600 8468; G2 XOR 2850 16998 21472; G2 XOR 2849 16999 21473;
  G2 XOR 2848 17000 21474; G2 XOR 2847 17001 21475; G2 XOR 21727 21600 8469; G2 AND 8469 8468 8467;
  G2 XOR 8467 21600 21601; G2 XOR 17001 21601 8465; G2 XOR 21664 21601 2846; G2 XOR 2846 17002 21476;
  G2 XOR 2784 16651 21728; G2 XOR 21728 21601 8466; G2 AND 8466 8465 8464; G2 XOR 8464 21601 21602;
  G2 XOR 21729 21602 8463; G2 XOR 17002 21602 8462; G2 AND 8463 8462 8461; G2 XOR 8461 21602 21603;
  G2 XOR 21666 21603 2844; G2 XOR 21730 21603 8460; G2 XOR 17003 21603 8459; G2 XOR 2844 17004 21478;
  G2 AND 8460 8459 8458; G2 XOR 8458 21603 21604; G2 XOR 21731 21604 8457; G2 XOR 21667 21604 2843;
  G2 XOR 2843 17005 21479; G2 XOR 21665 21602 2845; G2 XOR 2845 17003 21477; G2 XOR 17004 21604 8456;
  G2 AND 8457 8456 8455; G2 XOR 8455 21604 21605; G2 XOR 17005 21605 8453; G2 XOR 21732 21605 8454;
  G2 AND 8454 8453 8452; G2 XOR 8452 21605 21606; G2 XOR 21733 21606 8451; G2 XOR 21669 21606 2841;
  G2 XOR 2841 17007 21481; G2 XOR 17006 21606 8450; G2 AND 8451 8450 8449; G2 XOR 8449 21606 21607;
  G2 XOR 21734 21607 8448; G2 XOR 21670 21607 2840; G2 XOR 2840 17008 21482; G2 XOR 17007 21607 8447;
  G2 AND 8448 8447 8446; G2 XOR 21668 21605 2842; G2 XOR 2842 17006 21480; G2 XOR 8446 21607 21608;
  G2 XOR 21735 21608 8445; G2 XOR 21671 21608 2839; G2 XOR 2839 17009 21483; G2 XOR 17008 21608 8444;
  G2 AND 8445 8444 8443; G2 XOR 8443 21608 21609; G2 XOR 21672 21609 172; G1 INV 172 16650;
  G2 XOR 2841 16650 21545; G2 XOR 2846 16650 21540; G2 XOR 2901 16650 21485; G2 XOR 2895 16650 21491;
  G2 XOR 2889 16650 21497; G2 XOR 2883 16650 21503; G2 XOR 2877 16650 21509; G2 XOR 2871 16650 21515;
  G2 XOR 2865 16650 21521; G2 XOR 2859 16650 21527; G2 XOR 2853 16650 21533; G2 XOR 2845 16650 21541;
  G2 XOR 2840 16650 21546; G2 XOR 2843 16650 21543; G2 XOR 16839 16650 21484; G2 AND 21484 16946 21358;
  G2 XOR 21485 21358 8442; G2 XOR 21421 21358 2963; G2 XOR 16947 21358 8441; G2 AND 8442 8441 8440;
  G2 XOR 8440 21358 21359; G2 XOR 21422 21359 2962; G2 XOR 16948 21359 8438; G2 XOR 2963 16948 21233;
  G2 XOR 2962 16949 21234; G2 XOR 2897 16650 21489; G2 XOR 2898 16650 21488; G2 XOR 2900 16650 21486;
  G2 XOR 21486 21359 8439; G2 AND 8439 8438 8437; G2 XOR 8437 21359 21360; G2 XOR 21423 21360 2961;
  G2 XOR 16949 21360 8435; G2 XOR 2961 16950 21235; G2 XOR 2899 16650 21487; G2 XOR 21487 21360 8436;
  G2 AND 8436 8435 8434; G2 XOR 8434 21360 21361; G2 XOR 21424 21361 2960; G2 XOR 21488 21361 8433;
  G2 XOR 16950 21361 8432; G2 AND 8433 8432 8431; G2 XOR 8431 21361 21362; G2 XOR 21425 21362 2959;
  G2 XOR 16951 21362 8429; G2 XOR 21489 21362 8430; G2 AND 8430 8429 8428; G2 XOR 8428 21362 21363;
  G2 XOR 21426 21363 2958; G2 XOR 16952 21363 8426; G2 XOR 2960 16951 21236; G2 XOR 2959 16952 21237;
  G2 XOR 2958 16953 21238; G2 XOR 2896 16650 21490; G2 XOR 21490 21363 8427; G2 AND 8427 8426 8425;
  G2 XOR 8425 21363 21364; G2 XOR 21491 21364 8424; G2 XOR 21427 21364 2957; G2 XOR 16953 21364 8423;
  G2 AND 8424 8423 8422; G2 XOR 8422 21364 21365; G2 XOR 21428 21365 2956; G2 XOR 16954 21365 8420;
  G2 XOR 2957 16954 21239; G2 XOR 2956 16955 21240; G2 XOR 2891 16650 21495; G2 XOR 2892 16650 21494;
  G2 XOR 2894 16650 21492; G2 XOR 21492 21365 8421; G2 AND 8421 8420 8419; G2 XOR 8419 21365 21366;
  G2 XOR 21429 21366 2955; G2 XOR 16955 21366 8417; G2 XOR 2955 16956 21241; G2 XOR 2893 16650 21493;
  G2 XOR 21493 21366 8418; G2 AND 8418 8417 8416; G2 XOR 2890 16650 21496; G2 XOR 2885 16650 21501;
  G2 XOR 2886 16650 21500; G2 XOR 2888 16650 21498; G2 XOR 2887 16650 21499; G2 XOR 2884 16650 21502;
  G2 XOR 2879 16650 21507; G2 XOR 2880 16650 21506; G2 XOR 2882 16650 21504; G2 XOR 2881 16650 21505;
  G2 XOR 2878 16650 21508; G2 XOR 2873 16650 21513; G2 XOR 2874 16650 21512; G2 XOR 2876 16650 21510;
  G2 XOR 2875 16650 21511; G2 XOR 2872 16650 21514; G2 XOR 2867 16650 21519; G2 XOR 2868 16650 21518;
  G2 XOR 2870 16650 21516; G2 XOR 2869 16650 21517; G2 XOR 2866 16650 21520; G2 XOR 2861 16650 21525;
  G2 XOR 2862 16650 21524; G2 XOR 2864 16650 21522; G2 XOR 2863 16650 21523; G2 XOR 2860 16650 21526;
  G2 XOR 2855 16650 21531; G2 XOR 2856 16650 21530; G2 XOR 2858 16650 21528; G2 XOR 2857 16650 21529;
  G2 XOR 2854 16650 21532; G2 XOR 2849 16650 21537; G2 XOR 2850 16650 21536; G2 XOR 2852 16650 21534;
  G2 XOR 2851 16650 21535; G2 XOR 2848 16650 21538; G2 AND 16650 4535 17534; G2 XOR 8416 21366 21367;
  G2 XOR 21430 21367 2954; G2 XOR 21494 21367 8415; G2 XOR 16956 21367 8414; G2 XOR 2954 16957 21242;
  G2 AND 8415 8414 8413; G2 XOR 8413 21367 21368; G2 XOR 21431 21368 2953; G2 XOR 16957 21368 8411;
  G2 XOR 21495 21368 8412; G2 AND 8412 8411 8410; G2 XOR 8410 21368 21369; G2 XOR 16958 21369 8408;
  G2 XOR 21432 21369 2952; G2 XOR 21496 21369 8409; G2 AND 8409 8408 8407; G2 XOR 8407 21369 21370;
  G2 XOR 21497 21370 8406; G2 XOR 21433 21370 2951; G2 XOR 16959 21370 8405; G2 AND 8406 8405 8404;
  G2 XOR 8404 21370 21371; G2 XOR 16960 21371 8402; G2 XOR 21498 21371 8403; G2 AND 8403 8402 8401;
  G2 XOR 8401 21371 21372; G2 XOR 21435 21372 2949; G2 XOR 16961 21372 8399; G2 XOR 21499 21372 8400;
  G2 AND 8400 8399 8398; G2 XOR 21434 21371 2950; G2 XOR 2953 16958 21243; G2 XOR 2952 16959 21244;
  G2 XOR 2951 16960 21245; G2 XOR 2950 16961 21246; G2 XOR 2949 16962 21247; G2 XOR 8398 21372 21373;
  G2 XOR 16962 21373 8396; G2 XOR 21436 21373 2948; G2 XOR 2948 16963 21248; G2 XOR 21500 21373 8397;
  G2 AND 8397 8396 8395; G2 XOR 8395 21373 21374; G2 XOR 21437 21374 2947; G2 XOR 2947 16964 21249;
  G2 XOR 21501 21374 8394; G2 XOR 16963 21374 8393; G2 AND 8394 8393 8392; G2 XOR 8392 21374 21375;
  G2 XOR 21438 21375 2946; G2 XOR 21502 21375 8391; G2 XOR 2946 16965 21250; G2 XOR 2842 16650 21544;
  G2 XOR 16964 21375 8390; G2 AND 8391 8390 8389; G2 XOR 8389 21375 21376; G2 XOR 16965 21376 8387;
  G2 XOR 21503 21376 8388; G2 AND 8388 8387 8386; G2 XOR 8386 21376 21377; G2 XOR 16966 21377 8384;
  G2 XOR 21504 21377 8385; G2 XOR 21440 21377 2944; G2 XOR 2944 16967 21252; G2 XOR 21439 21376 2945;
  G2 XOR 2945 16966 21251; G2 AND 8385 8384 8383; G2 XOR 8383 21377 21378; G2 XOR 21505 21378 8382;
  G2 XOR 16967 21378 8381; G2 AND 8382 8381 8380; G2 XOR 8380 21378 21379; G2 XOR 21506 21379 8379;
  G2 XOR 21442 21379 2942; G2 XOR 2942 16969 21254; G2 XOR 16968 21379 8378; G2 AND 8379 8378 8377;
  G2 XOR 8377 21379 21380; G2 XOR 21507 21380 8376; G2 XOR 21443 21380 2941; G2 XOR 2941 16970 21255;
  G2 XOR 16969 21380 8375; G2 AND 8376 8375 8374; G2 XOR 8374 21380 21381; G2 XOR 16970 21381 8372;
  G2 XOR 21508 21381 8373; G2 XOR 21444 21381 2940; G2 XOR 2940 16971 21256; G2 AND 8373 8372 8371;
  G2 XOR 8371 21381 21382; G2 XOR 16971 21382 8369; G2 XOR 21509 21382 8370; G2 AND 8370 8369 8368;
  G2 XOR 8368 21382 21383; G2 XOR 21446 21383 2938; G2 XOR 16972 21383 8366; G2 XOR 2938 16973 21258;
  G2 XOR 21510 21383 8367; G2 AND 8367 8366 8365; G2 XOR 8365 21383 21384; G2 XOR 21447 21384 2937;
  G2 XOR 21511 21384 8364; G2 XOR 16973 21384 8363; G2 XOR 2937 16974 21259; G2 XOR 21445 21382 2939;
  G2 XOR 2939 16972 21257; G2 AND 8364 8363 8362; G2 XOR 8362 21384 21385; G2 XOR 21448 21385 2936;
  G2 XOR 21512 21385 8361; G2 XOR 16974 21385 8360; G2 AND 8361 8360 8359; G2 XOR 8359 21385 21386;
  G2 XOR 21513 21386 8358; G2 XOR 21449 21386 2935; G2 XOR 2936 16975 21260; G2 XOR 2935 16976 21261;
  G2 XOR 16975 21386 8357; G2 AND 8358 8357 8356; G2 XOR 8356 21386 21387; G2 XOR 16976 21387 8354;
  G2 XOR 21450 21387 2934; G2 XOR 21514 21387 8355; G2 AND 8355 8354 8353; G2 XOR 8353 21387 21388;
  G2 XOR 21515 21388 8352; G2 XOR 21451 21388 2933; G2 XOR 2934 16977 21262; G2 XOR 2933 16978 21263;
  G2 XOR 16977 21388 8351; G2 AND 8352 8351 8350; G2 XOR 8350 21388 21389; G2 XOR 16978 21389 8348;
  G2 XOR 21516 21389 8349; G2 XOR 21452 21389 2932; G2 AND 8349 8348 8347; G2 XOR 8347 21389 21390;
  G2 XOR 21517 21390 8346; G2 XOR 16979 21390 8345; G2 XOR 21453 21390 2931; G2 XOR 2932 16979 21264;
  G2 XOR 2931 16980 21265; G2 AND 8346 8345 8344; G2 XOR 8344 21390 21391; G2 XOR 21518 21391 8343;
  G2 XOR 16980 21391 8342; G2 AND 8343 8342 8341; G2 XOR 8341 21391 21392; G2 XOR 21519 21392 8340;
  G2 XOR 21455 21392 2929; G2 XOR 16981 21392 8339; G2 AND 8340 8339 8338; G2 XOR 8338 21392 21393;
  G2 XOR 16982 21393 8336; G2 XOR 2929 16982 21267; G2 XOR 21456 21393 2928; G2 XOR 2928 16983 21268;
  G2 XOR 21520 21393 8337; G2 AND 8337 8336 8335; G2 XOR 8335 21393 21394; G2 XOR 21521 21394 8334;
  G2 XOR 21457 21394 2927; G2 XOR 16983 21394 8333; G2 AND 8334 8333 8332; G2 XOR 8332 21394 21395;
  G2 XOR 21522 21395 8331; G2 XOR 21458 21395 2926; G2 XOR 16984 21395 8330; G2 AND 8331 8330 8329;
  G2 XOR 8329 21395 21396; G2 XOR 21523 21396 8328; G2 XOR 16985 21396 8327; G2 XOR 21459 21396 2925;
  G2 XOR 2927 16984 21269; G2 XOR 2926 16985 21270; G2 XOR 2925 16986 21271; G2 AND 8328 8327 8326;
  G2 XOR 8326 21396 21397; G2 XOR 16986 21397 8324; G2 XOR 21524 21397 8325; G2 AND 8325 8324 8323;
  G2 XOR 8323 21397 21398; G2 XOR 21525 21398 8322; G2 XOR 21461 21398 2923; G2 XOR 16987 21398 8321;
  G2 AND 8322 8321 8320; G2 XOR 8320 21398 21399; G2 XOR 21526 21399 8319; G2 XOR 16988 21399 8318;
  G2 AND 8319 8318 8317; G2 XOR 8317 21399 21400; G2 XOR 21527 21400 8316; G2 XOR 21463 21400 2921;
  G2 XOR 16989 21400 8315; G2 AND 8316 8315 8314; G2 XOR 8314 21400 21401; G2 XOR 21464 21401 2920;
  G2 XOR 16990 21401 8312; G2 XOR 21528 21401 8313; G2 AND 8313 8312 8311; G2 XOR 8311 21401 21402;
  G2 XOR 21465 21402 2919; G2 XOR 2923 16988 21273; G2 XOR 2921 16990 21275; G2 XOR 2920 16991 21276;
  G2 XOR 2919 16992 21277; G2 XOR 16991 21402 8309; G2 XOR 21460 21397 2924; G2 XOR 2924 16987 21272;
  G2 XOR 21529 21402 8310; G2 AND 8310 8309 8308; G2 XOR 8308 21402 21403; G2 XOR 21530 21403 8307;
  G2 XOR 16992 21403 8306; G2 AND 8307 8306 8305; G2 XOR 8305 21403 21404; G2 XOR 21467 21404 2917;
  G2 XOR 16993 21404 8303; G2 XOR 21531 21404 8304; G2 AND 8304 8303 8302; G2 XOR 8302 21404 21405;
  G2 XOR 16994 21405 8300; G2 XOR 21468 21405 2916; G2 XOR 21532 21405 8301; G2 AND 8301 8300 8299;
  G2 XOR 8299 21405 21406; G2 XOR 21469 21406 2915; G2 XOR 21533 21406 8298; G2 XOR 21466 21403 2918;
  G2 XOR 16995 21406 8297; G2 AND 8298 8297 8296; G2 XOR 8296 21406 21407; G2 XOR 21470 21407 2914;
  G2 XOR 16996 21407 8294; G2 XOR 21534 21407 8295; G2 AND 8295 8294 8293; G2 XOR 2918 16993 21278;
  G2 XOR 2917 16994 21279; G2 XOR 2916 16995 21280; G2 XOR 2915 16996 21281; G2 XOR 2914 16997 21282;
  G2 XOR 8293 21407 21408; G2 XOR 16997 21408 8291; G2 XOR 21535 21408 8292; G2 AND 8292 8291 8290;
  G2 XOR 8290 21408 21409; G2 XOR 16998 21409 8288; G2 XOR 21472 21409 2912; G2 XOR 21471 21408 2913;
  G2 XOR 2913 16998 21283; G2 XOR 2912 16999 21284; G2 XOR 21536 21409 8289; G2 AND 8289 8288 8287;
  G2 XOR 8287 21409 21410; G2 XOR 21537 21410 8286; G2 XOR 21473 21410 2911; G2 XOR 16999 21410 8285;
  G2 AND 8286 8285 8284; G2 XOR 8284 21410 21411; G2 XOR 17000 21411 8282; G2 XOR 21538 21411 8283;
  G2 AND 8283 8282 8281; G2 XOR 8281 21411 21412; G2 XOR 17001 21412 8279; G2 XOR 21474 21411 2910;
  G2 XOR 2911 17000 21285; G2 XOR 2910 17001 21286; G2 XOR 21475 21412 2909; G2 XOR 2909 17002 21287;
  G2 XOR 21454 21391 2930; G2 XOR 2930 16981 21266; G2 XOR 21462 21399 2922; G2 XOR 2922 16989 21274;
  G2 XOR 21441 21378 2943; G2 XOR 2943 16968 21253; G2 XOR 2844 16650 21542; G2 XOR 2847 16650 21539;
  G2 XOR 21539 21412 8280; G2 AND 8280 8279 8278; G2 XOR 8278 21412 21413; G2 XOR 17002 21413 8276;
  G2 XOR 21476 21413 2908; G2 XOR 21540 21413 8277; G2 AND 8277 8276 8275; G2 XOR 8275 21413 21414;
  G2 XOR 21477 21414 2907; G2 XOR 17003 21414 8273; G2 XOR 2908 17003 21288; G2 XOR 2907 17004 21289;
  G2 XOR 21541 21414 8274; G2 AND 8274 8273 8272; G2 XOR 8272 21414 21415; G2 XOR 17004 21415 8270;
  G2 XOR 21542 21415 8271; G2 AND 8271 8270 8269; G2 XOR 8269 21415 21416; G2 XOR 17005 21416 8267;
  G2 XOR 21479 21416 2905; G2 XOR 21478 21415 2906; G2 XOR 21543 21416 8268; G2 AND 8268 8267 8266;
  G2 XOR 2906 17005 21290; G2 XOR 2905 17006 21291; G2 XOR 8266 21416 21417; G2 XOR 21544 21417 8265;
  G2 XOR 21480 21417 2904; G2 XOR 17006 21417 8264; G2 AND 8265 8264 8263; G2 XOR 8263 21417 21418;
  G2 XOR 17007 21418 8261; G2 XOR 21481 21418 2903; G2 XOR 21545 21418 8262; G2 AND 8262 8261 8260;
  G2 XOR 8260 21418 21419; G2 XOR 17008 21419 8258; G2 XOR 21546 21419 8259; G2 AND 8259 8258 8257;
  G2 XOR 8257 21419 21420; G2 XOR 21483 21420 173; G2 XOR 21482 21419 2902; G2 XOR 2903 17008 21293;
  G2 XOR 2904 17007 21292; G2 XOR 2902 17009 21294; G1 INV 173 16649; G2 XOR 2905 16649 21355;
  G2 XOR 2903 16649 21357; G2 XOR 2964 16649 21296; G2 XOR 2958 16649 21302; G2 XOR 2952 16649 21308;
  G2 XOR 2946 16649 21314; G2 XOR 2940 16649 21320; G2 XOR 2934 16649 21326; G2 XOR 2928 16649 21332;
  G2 XOR 2922 16649 21338; G2 XOR 2916 16649 21344; G2 XOR 2904 16649 21356; G2 XOR 16838 16649 21295;
  G2 AND 21295 16946 21169; G2 XOR 16947 21169 8255; G2 XOR 21296 21169 8256; G2 AND 8256 8255 8254;
  G2 XOR 8254 21169 21170; G2 XOR 21233 21170 3025; G2 XOR 16948 21170 8252; G2 XOR 21232 21169 3026;
  G2 XOR 3026 16948 21044; G2 XOR 3025 16949 21045; G2 XOR 2960 16649 21300; G2 XOR 2961 16649 21299;
  G2 XOR 2963 16649 21297; G2 XOR 21297 21170 8253; G2 AND 8253 8252 8251; G2 XOR 8251 21170 21171;
  G2 XOR 21234 21171 3024; G2 XOR 16949 21171 8249; G2 XOR 3024 16950 21046; G2 XOR 2962 16649 21298;
  G2 XOR 21298 21171 8250; G2 AND 8250 8249 8248; G2 XOR 8248 21171 21172; G2 XOR 21235 21172 3023;
  G2 XOR 16950 21172 8246; G2 XOR 21299 21172 8247; G2 AND 8247 8246 8245; G2 XOR 8245 21172 21173;
  G2 XOR 16951 21173 8243; G2 XOR 21236 21173 3022; G2 XOR 21300 21173 8244; G2 AND 8244 8243 8242;
  G2 XOR 8242 21173 21174; G2 XOR 21237 21174 3021; G2 XOR 16952 21174 8240; G2 XOR 3023 16951 21047;
  G2 XOR 3022 16952 21048; G2 XOR 3021 16953 21049; G2 XOR 2959 16649 21301; G2 XOR 21301 21174 8241;
  G2 AND 8241 8240 8239; G2 XOR 8239 21174 21175; G2 XOR 16953 21175 8237; G2 XOR 21302 21175 8238;
  G2 AND 8238 8237 8236; G2 XOR 8236 21175 21176; G2 XOR 21239 21176 3019; G2 XOR 16954 21176 8234;
  G2 XOR 21238 21175 3020; G2 XOR 3020 16954 21050; G2 XOR 3019 16955 21051; G2 XOR 2954 16649 21306;
  G2 XOR 2955 16649 21305; G2 XOR 2957 16649 21303; G2 XOR 21303 21176 8235; G2 AND 8235 8234 8233;
  G2 XOR 2956 16649 21304; G2 XOR 2953 16649 21307; G2 XOR 2948 16649 21312; G2 XOR 2949 16649 21311;
  G2 XOR 2951 16649 21309; G2 XOR 2950 16649 21310; G2 XOR 2947 16649 21313; G2 XOR 2942 16649 21318;
  G2 XOR 2943 16649 21317; G2 XOR 2945 16649 21315; G2 XOR 2944 16649 21316; G2 XOR 2941 16649 21319;
  G2 XOR 2936 16649 21324; G2 XOR 2937 16649 21323; G2 XOR 2939 16649 21321; G2 XOR 2938 16649 21322;
  G2 XOR 2935 16649 21325; G2 XOR 2930 16649 21330; G2 XOR 2931 16649 21329; G2 XOR 2933 16649 21327;
  G2 XOR 2932 16649 21328; G2 XOR 2929 16649 21331; G2 XOR 2924 16649 21336; G2 XOR 2925 16649 21335;
  G2 XOR 2927 16649 21333; G2 XOR 2926 16649 21334; G2 XOR 2923 16649 21337; G2 XOR 2918 16649 21342;
  G2 XOR 2919 16649 21341; G2 XOR 2921 16649 21339; G2 XOR 2920 16649 21340; G2 XOR 2917 16649 21343;
  G2 XOR 2912 16649 21348; G2 XOR 2913 16649 21347; G2 XOR 2915 16649 21345; G2 XOR 2914 16649 21346;
  G2 XOR 2911 16649 21349; G2 XOR 2908 16649 21352; G2 XOR 2910 16649 21350; G2 AND 16649 4535 17533;
  G2 XOR 8233 21176 21177; G2 XOR 21240 21177 3018; G2 XOR 21304 21177 8232; G2 XOR 16955 21177 8231;
  G2 XOR 3018 16956 21052; G2 AND 8232 8231 8230; G2 XOR 8230 21177 21178; G2 XOR 21241 21178 3017;
  G2 XOR 16956 21178 8228; G2 XOR 21305 21178 8229; G2 AND 8229 8228 8227; G2 XOR 8227 21178 21179;
  G2 XOR 21242 21179 3016; G2 XOR 21306 21179 8226; G2 XOR 16957 21179 8225; G2 AND 8226 8225 8224;
  G2 XOR 8224 21179 21180; G2 XOR 21307 21180 8223; G2 XOR 21243 21180 3015; G2 XOR 16958 21180 8222;
  G2 AND 8223 8222 8221; G2 XOR 8221 21180 21181; G2 XOR 16959 21181 8219; G2 XOR 21308 21181 8220;
  G2 AND 8220 8219 8218; G2 XOR 8218 21181 21182; G2 XOR 21245 21182 3013; G2 XOR 16960 21182 8216;
  G2 XOR 21309 21182 8217; G2 AND 8217 8216 8215; G2 XOR 21244 21181 3014; G2 XOR 8215 21182 21183;
  G2 XOR 21310 21183 8214; G2 XOR 16961 21183 8213; G2 XOR 21246 21183 3012; G2 AND 8214 8213 8212;
  G2 XOR 8212 21183 21184; G2 XOR 16962 21184 8210; G2 XOR 21247 21184 3011; G2 XOR 21311 21184 8211;
  G2 AND 8211 8210 8209; G2 XOR 8209 21184 21185; G2 XOR 21248 21185 3010; G2 XOR 21312 21185 8208;
  G2 XOR 16963 21185 8207; G2 AND 8208 8207 8206; G2 XOR 8206 21185 21186; G2 XOR 21249 21186 3009;
  G2 XOR 16964 21186 8204; G2 XOR 21313 21186 8205; G2 AND 8205 8204 8203; G2 XOR 8203 21186 21187;
  G2 XOR 21314 21187 8202; G2 XOR 16965 21187 8201; G2 AND 8202 8201 8200; G2 XOR 8200 21187 21188;
  G2 XOR 16966 21188 8198; G2 XOR 21315 21188 8199; G2 AND 8199 8198 8197; G2 XOR 21251 21188 3007;
  G2 XOR 21250 21187 3008; G2 XOR 3017 16957 21053; G2 XOR 3016 16958 21054; G2 XOR 3015 16959 21055;
  G2 XOR 3014 16960 21056; G2 XOR 3013 16961 21057; G2 XOR 3012 16962 21058; G2 XOR 3011 16963 21059;
  G2 XOR 3010 16964 21060; G2 XOR 3009 16965 21061; G2 XOR 3008 16966 21062; G2 XOR 3007 16967 21063;
  G2 XOR 8197 21188 21189; G2 XOR 21252 21189 3006; G2 XOR 21316 21189 8196; G2 XOR 16967 21189 8195;
  G2 AND 8196 8195 8194; G2 XOR 8194 21189 21190; G2 XOR 21317 21190 8193; G2 XOR 21253 21190 3005;
  G2 XOR 16968 21190 8192; G2 AND 8193 8192 8191; G2 XOR 8191 21190 21191; G2 XOR 16969 21191 8189;
  G2 XOR 21254 21191 3004; G2 XOR 21318 21191 8190; G2 AND 8190 8189 8188; G2 XOR 8188 21191 21192;
  G2 XOR 16970 21192 8186; G2 XOR 21319 21192 8187; G2 AND 8187 8186 8185; G2 XOR 8185 21192 21193;
  G2 XOR 21320 21193 8184; G2 XOR 16971 21193 8183; G2 AND 8184 8183 8182; G2 XOR 8182 21193 21194;
  G2 XOR 21321 21194 8181; G2 XOR 21257 21194 3001; G2 XOR 16972 21194 8180; G2 AND 8181 8180 8179;
  G2 XOR 8179 21194 21195; G2 XOR 16973 21195 8177; G2 XOR 21322 21195 8178; G2 AND 8178 8177 8176;
  G2 XOR 21258 21195 3000; G2 XOR 8176 21195 21196; G2 XOR 16974 21196 8174; G2 XOR 21323 21196 8175;
  G2 XOR 21259 21196 2999; G2 AND 8175 8174 8173; G2 XOR 8173 21196 21197; G2 XOR 21324 21197 8172;
  G2 XOR 21260 21197 2998; G2 XOR 3006 16968 21064; G2 XOR 3005 16969 21065; G2 XOR 3004 16970 21066;
  G2 XOR 3001 16973 21069; G2 XOR 3000 16974 21070; G2 XOR 2999 16975 21071; G2 XOR 2998 16976 21072;
  G2 XOR 21256 21193 3002; G2 XOR 3002 16972 21068; G2 XOR 16975 21197 8171; G2 AND 8172 8171 8170;
  G2 XOR 8170 21197 21198; G2 XOR 21325 21198 8169; G2 XOR 16976 21198 8168; G2 AND 8169 8168 8167;
  G2 XOR 21261 21198 2997; G2 XOR 8167 21198 21199; G2 XOR 16977 21199 8165; G2 XOR 21262 21199 2996;
  G2 XOR 21326 21199 8166; G2 AND 8166 8165 8164; G2 XOR 8164 21199 21200; G2 XOR 16978 21200 8162;
  G2 XOR 21327 21200 8163; G2 AND 8163 8162 8161; G2 XOR 8161 21200 21201; G2 XOR 21328 21201 8160;
  G2 XOR 21263 21200 2995; G2 XOR 21264 21201 2994; G2 XOR 16979 21201 8159; G2 AND 8160 8159 8158;
  G2 XOR 8158 21201 21202; G2 XOR 21265 21202 2993; G2 XOR 16980 21202 8156; G2 XOR 2997 16977 21073;
  G2 XOR 2996 16978 21074; G2 XOR 2995 16979 21075; G2 XOR 2994 16980 21076; G2 XOR 2993 16981 21077;
  G2 XOR 21329 21202 8157; G2 AND 8157 8156 8155; G2 XOR 8155 21202 21203; G2 XOR 16981 21203 8153;
  G2 XOR 21266 21203 2992; G2 XOR 21330 21203 8154; G2 AND 8154 8153 8152; G2 XOR 8152 21203 21204;
  G2 XOR 16982 21204 8150; G2 XOR 2992 16982 21078; G2 XOR 21331 21204 8151; G2 AND 8151 8150 8149;
  G2 XOR 8149 21204 21205; G2 XOR 16983 21205 8147; G2 XOR 21332 21205 8148; G2 XOR 21268 21205 2990;
  G2 AND 8148 8147 8146; G2 XOR 8146 21205 21206; G2 XOR 16984 21206 8144; G2 XOR 21333 21206 8145;
  G2 AND 8145 8144 8143; G2 XOR 8143 21206 21207; G2 XOR 21270 21207 2988; G2 XOR 16985 21207 8141;
  G2 XOR 21334 21207 8142; G2 XOR 21269 21206 2989; G2 XOR 2990 16984 21080; G2 XOR 2989 16985 21081;
  G2 XOR 2988 16986 21082; G2 AND 8142 8141 8140; G2 XOR 8140 21207 21208; G2 XOR 21271 21208 2987;
  G2 XOR 16986 21208 8138; G2 XOR 2987 16987 21083; G2 XOR 21335 21208 8139; G2 AND 8139 8138 8137;
  G2 XOR 8137 21208 21209; G2 XOR 21272 21209 2986; G2 XOR 21336 21209 8136; G2 XOR 2986 16988 21084;
  G2 XOR 16987 21209 8135; G2 AND 8136 8135 8134; G2 XOR 8134 21209 21210; G2 XOR 21337 21210 8133;
  G2 XOR 21273 21210 2985; G2 XOR 16988 21210 8132; G2 AND 8133 8132 8131; G2 XOR 8131 21210 21211;
  G2 XOR 21274 21211 2984; G2 XOR 16989 21211 8129; G2 XOR 21338 21211 8130; G2 AND 8130 8129 8128;
  G2 XOR 2985 16989 21085; G2 XOR 2984 16990 21086; G2 XOR 8128 21211 21212; G2 XOR 21275 21212 2983;
  G2 XOR 21339 21212 8127; G2 XOR 16990 21212 8126; G2 AND 8127 8126 8125; G2 XOR 8125 21212 21213;
  G2 XOR 21276 21213 2982; G2 XOR 16991 21213 8123; G2 XOR 2983 16991 21087; G2 XOR 2982 16992 21088;
  G2 XOR 21340 21213 8124; G2 AND 8124 8123 8122; G2 XOR 8122 21213 21214; G2 XOR 16992 21214 8120;
  G2 XOR 21341 21214 8121; G2 AND 8121 8120 8119; G2 XOR 8119 21214 21215; G2 XOR 21342 21215 8118;
  G2 XOR 16993 21215 8117; G2 AND 8118 8117 8116; G2 XOR 8116 21215 21216; G2 XOR 16994 21216 8114;
  G2 XOR 21343 21216 8115; G2 AND 8115 8114 8113; G2 XOR 8113 21216 21217; G2 XOR 16995 21217 8111;
  G2 XOR 21344 21217 8112; G2 XOR 21280 21217 2978; G2 XOR 21278 21215 2980; G2 XOR 21279 21216 2979;
  G2 XOR 21277 21214 2981; G2 AND 8112 8111 8110; G2 XOR 8110 21217 21218; G2 XOR 21345 21218 8109;
  G2 XOR 21281 21218 2977; G2 XOR 2981 16993 21089; G2 XOR 2980 16994 21090; G2 XOR 2979 16995 21091;
  G2 XOR 2978 16996 21092; G2 XOR 2977 16997 21093; G2 XOR 16996 21218 8108; G2 AND 8109 8108 8107;
  G2 XOR 8107 21218 21219; G2 XOR 21346 21219 8106; G2 XOR 16997 21219 8105; G2 AND 8106 8105 8104;
  G2 XOR 8104 21219 21220; G2 XOR 21347 21220 8103; G2 XOR 21282 21219 2976; G2 XOR 2976 16998 21094;
  G2 XOR 21283 21220 2975; G2 XOR 2975 16999 21095; G2 XOR 16998 21220 8102; G2 AND 8103 8102 8101;
  G2 XOR 8101 21220 21221; G2 XOR 16999 21221 8099; G2 XOR 21284 21221 2974; G2 XOR 21348 21221 8100;
  G2 AND 8100 8099 8098; G2 XOR 8098 21221 21222; G2 XOR 21349 21222 8097; G2 XOR 17000 21222 8096;
  G2 AND 8097 8096 8095; G2 XOR 8095 21222 21223; G2 XOR 17001 21223 8093; G2 XOR 21286 21223 2972;
  G2 XOR 21285 21222 2973; G2 XOR 21350 21223 8094; G2 AND 8094 8093 8092; G2 XOR 8092 21223 21224;
  G2 XOR 21287 21224 2971; G2 XOR 2974 17000 21096; G2 XOR 2973 17001 21097; G2 XOR 2972 17002 21098;
  G2 XOR 2971 17003 21099; G2 XOR 17002 21224 8090; G2 XOR 21267 21204 2991; G2 XOR 2991 16983 21079;
  G2 XOR 21255 21192 3003; G2 XOR 3003 16971 21067; G2 XOR 2907 16649 21353; G2 XOR 2906 16649 21354;
  G2 XOR 2909 16649 21351; G2 XOR 21351 21224 8091; G2 AND 8091 8090 8089; G2 XOR 8089 21224 21225;
  G2 XOR 17003 21225 8087; G2 XOR 21352 21225 8088; G2 XOR 21288 21225 2970; G2 XOR 2970 17004 21100;
  G2 AND 8088 8087 8086; G2 XOR 8086 21225 21226; G2 XOR 21289 21226 2969; G2 XOR 17004 21226 8084;
  G2 XOR 21353 21226 8085; G2 AND 8085 8084 8083; G2 XOR 8083 21226 21227; G2 XOR 21290 21227 2968;
  G2 XOR 17005 21227 8081; G2 XOR 21354 21227 8082; G2 AND 8082 8081 8080; G2 XOR 2969 17005 21101;
  G2 XOR 2968 17006 21102; G2 XOR 8080 21227 21228; G2 XOR 17006 21228 8078; G2 XOR 21355 21228 8079;
  G2 XOR 21291 21228 2967; G2 XOR 2967 17007 21103; G2 AND 8079 8078 8077; G2 XOR 8077 21228 21229;
  G2 XOR 21292 21229 2966; G2 XOR 21356 21229 8076; G2 XOR 2966 17008 21104; G2 XOR 17007 21229 8075;
  G2 AND 8076 8075 8074; G2 XOR 8074 21229 21230; G2 XOR 21357 21230 8073; G2 XOR 17008 21230 8072;
  G2 AND 8073 8072 8071; G2 XOR 8071 21230 21231; G2 XOR 21294 21231 174; G2 XOR 21293 21230 2965;
  G2 XOR 2965 17009 21105; G1 INV 174 16648; G2 XOR 2966 16648 21168; G2 XOR 3026 16648 21108;
  G2 XOR 3020 16648 21114; G2 XOR 3014 16648 21120; G2 XOR 3008 16648 21126; G2 XOR 3002 16648 21132;
  G2 XOR 2996 16648 21138; G2 XOR 2990 16648 21144; G2 XOR 2984 16648 21150; G2 XOR 2978 16648 21156;
  G2 XOR 2971 16648 21163; G2 XOR 2968 16648 21166; G2 XOR 2970 16648 21164; G2 XOR 2969 16648 21165;
  G2 XOR 2967 16648 21167; G2 XOR 16837 16648 21106; G2 XOR 3027 16648 21107; G2 XOR 3022 16648 21112;
  G2 XOR 3023 16648 21111; G2 XOR 3025 16648 21109; G2 XOR 3024 16648 21110; G2 XOR 3021 16648 21113;
  G2 XOR 3016 16648 21118; G2 XOR 3017 16648 21117; G2 XOR 3019 16648 21115; G2 XOR 3018 16648 21116;
  G2 XOR 3015 16648 21119; G2 XOR 3010 16648 21124; G2 XOR 3011 16648 21123; G2 XOR 3013 16648 21121;
  G2 XOR 3012 16648 21122; G2 XOR 3009 16648 21125; G2 XOR 3004 16648 21130; G2 XOR 3005 16648 21129;
  G2 XOR 3007 16648 21127; G2 XOR 3006 16648 21128; G2 XOR 3003 16648 21131; G2 XOR 2998 16648 21136;
  G2 XOR 2999 16648 21135; G2 XOR 3001 16648 21133; G2 XOR 3000 16648 21134; G2 XOR 2997 16648 21137;
  G2 XOR 2992 16648 21142; G2 XOR 2993 16648 21141; G2 XOR 2995 16648 21139; G2 XOR 2994 16648 21140;
  G2 XOR 2991 16648 21143; G2 XOR 2986 16648 21148; G2 XOR 2987 16648 21147; G2 XOR 2989 16648 21145;
  G2 XOR 2988 16648 21146; G2 XOR 2985 16648 21149; G2 XOR 2980 16648 21154; G2 XOR 2981 16648 21153;
  G2 XOR 2983 16648 21151; G2 XOR 2982 16648 21152; G2 XOR 2979 16648 21155; G2 XOR 2974 16648 21160;
  G2 XOR 2975 16648 21159; G2 XOR 2977 16648 21157; G2 XOR 2976 16648 21158; G2 XOR 2973 16648 21161;
  G2 AND 16648 4535 17532; G2 AND 21106 16946 20980; G2 XOR 16947 20980 8069; G2 XOR 21107 20980 8070;
  G2 AND 8070 8069 8068; G2 XOR 8068 20980 20981; G2 XOR 21044 20981 3088; G2 XOR 16948 20981 8066;
  G2 XOR 21108 20981 8067; G2 AND 8067 8066 8065; G2 XOR 21043 20980 3089; G2 XOR 8065 20981 20982;
  G2 XOR 21045 20982 3087; G2 XOR 21109 20982 8064; G2 XOR 16949 20982 8063; G2 AND 8064 8063 8062;
  G2 XOR 8062 20982 20983; G2 XOR 21046 20983 3086; G2 XOR 16950 20983 8060; G2 XOR 21110 20983 8061;
  G2 AND 8061 8060 8059; G2 XOR 8059 20983 20984; G2 XOR 16951 20984 8057; G2 XOR 21047 20984 3085;
  G2 XOR 21111 20984 8058; G2 AND 8058 8057 8056; G2 XOR 8056 20984 20985; G2 XOR 21112 20985 8055;
  G2 XOR 21048 20985 3084; G2 XOR 16952 20985 8054; G2 AND 8055 8054 8053; G2 XOR 8053 20985 20986;
  G2 XOR 21049 20986 3083; G2 XOR 16953 20986 8051; G2 XOR 21113 20986 8052; G2 AND 8052 8051 8050;
  G2 XOR 8050 20986 20987; G2 XOR 21050 20987 3082; G2 XOR 16954 20987 8048; G2 XOR 21114 20987 8049;
  G2 AND 8049 8048 8047; G2 XOR 8047 20987 20988; G2 XOR 21051 20988 3081; G2 XOR 21115 20988 8046;
  G2 XOR 16955 20988 8045; G2 AND 8046 8045 8044; G2 XOR 8044 20988 20989; G2 XOR 21052 20989 3080;
  G2 XOR 16956 20989 8042; G2 XOR 21116 20989 8043; G2 AND 8043 8042 8041; G2 XOR 8041 20989 20990;
  G2 XOR 21053 20990 3079; G2 XOR 21117 20990 8040; G2 XOR 16957 20990 8039; G2 AND 8040 8039 8038;
  G2 XOR 8038 20990 20991; G2 XOR 21118 20991 8037; G2 XOR 21054 20991 3078; G2 XOR 16958 20991 8036;
  G2 AND 8037 8036 8035; G2 XOR 8035 20991 20992; G2 XOR 16959 20992 8033; G2 XOR 21119 20992 8034;
  G2 AND 8034 8033 8032; G2 XOR 8032 20992 20993; G2 XOR 21056 20993 3076; G2 XOR 16960 20993 8030;
  G2 XOR 21120 20993 8031; G2 AND 8031 8030 8029; G2 XOR 8029 20993 20994; G2 XOR 21057 20994 3075;
  G2 XOR 21121 20994 8028; G2 XOR 16961 20994 8027; G2 AND 8028 8027 8026; G2 XOR 8026 20994 20995;
  G2 XOR 21058 20995 3074; G2 XOR 16962 20995 8024; G2 XOR 21055 20992 3077; G2 XOR 21122 20995 8025;
  G2 AND 8025 8024 8023; G2 XOR 8023 20995 20996; G2 XOR 21059 20996 3073; G2 XOR 21123 20996 8022;
  G2 XOR 3089 16948 20855; G2 XOR 3088 16949 20856; G2 XOR 3087 16950 20857; G2 XOR 3086 16951 20858;
  G2 XOR 3085 16952 20859; G2 XOR 3084 16953 20860; G2 XOR 3083 16954 20861; G2 XOR 3082 16955 20862;
  G2 XOR 3081 16956 20863; G2 XOR 3080 16957 20864; G2 XOR 3079 16958 20865; G2 XOR 3078 16959 20866;
  G2 XOR 3077 16960 20867; G2 XOR 3076 16961 20868; G2 XOR 3075 16962 20869; G2 XOR 3074 16963 20870;
  G2 XOR 3073 16964 20871; G2 XOR 16963 20996 8021; G2 AND 8022 8021 8020; G2 XOR 8020 20996 20997;
  G2 XOR 21124 20997 8019; G2 XOR 21060 20997 3072; G2 XOR 16964 20997 8018; G2 AND 8019 8018 8017;
  G2 XOR 8017 20997 20998; G2 XOR 21061 20998 3071; G2 XOR 16965 20998 8015; G2 XOR 21125 20998 8016;
  G2 AND 8016 8015 8014; G2 XOR 8014 20998 20999; G2 XOR 16966 20999 8012; G2 XOR 21126 20999 8013;
  G2 AND 8013 8012 8011; G2 XOR 8011 20999 21000; G2 XOR 21127 21000 8010; G2 XOR 21063 21000 3069;
  G2 XOR 16967 21000 8009; G2 AND 8010 8009 8008; G2 XOR 8008 21000 21001; G2 XOR 21128 21001 8007;
  G2 XOR 16968 21001 8006; G2 XOR 21064 21001 3068; G2 AND 8007 8006 8005; G2 XOR 8005 21001 21002;
  G2 XOR 16969 21002 8003; G2 XOR 21129 21002 8004; G2 XOR 21065 21002 3067; G2 AND 8004 8003 8002;
  G2 XOR 8002 21002 21003; G2 XOR 16970 21003 8000; G2 XOR 21130 21003 8001; G2 AND 8001 8000 7999;
  G2 XOR 21066 21003 3066; G2 XOR 7999 21003 21004; G2 XOR 21131 21004 7998; G2 XOR 21067 21004 3065;
  G2 XOR 16971 21004 7997; G2 AND 7998 7997 7996; G2 XOR 7996 21004 21005; G2 XOR 16972 21005 7994;
  G2 XOR 21132 21005 7995; G2 AND 7995 7994 7993; G2 XOR 7993 21005 21006; G2 XOR 16973 21006 7991;
  G2 XOR 21133 21006 7992; G2 AND 7992 7991 7990; G2 XOR 21069 21006 3063; G2 XOR 21068 21005 3064;
  G2 XOR 7990 21006 21007; G2 XOR 21070 21007 3062; G2 XOR 21134 21007 7989; G2 XOR 16974 21007 7988;
  G2 AND 7989 7988 7987; G2 XOR 7987 21007 21008; G2 XOR 16975 21008 7985; G2 XOR 21135 21008 7986;
  G2 XOR 21071 21008 3061; G2 AND 7986 7985 7984; G2 XOR 7984 21008 21009; G2 XOR 16976 21009 7982;
  G2 XOR 21136 21009 7983; G2 AND 7983 7982 7981; G2 XOR 7981 21009 21010; G2 XOR 16977 21010 7979;
  G2 XOR 21137 21010 7980; G2 XOR 21073 21010 3059; G2 AND 7980 7979 7978; G2 XOR 7978 21010 21011;
  G2 XOR 16978 21011 7976; G2 XOR 21138 21011 7977; G2 AND 7977 7976 7975; G2 XOR 7975 21011 21012;
  G2 XOR 21072 21009 3060; G2 XOR 21139 21012 7974; G2 XOR 16979 21012 7973; G2 AND 7974 7973 7972;
  G2 XOR 7972 21012 21013; G2 XOR 21076 21013 3056; G2 XOR 21140 21013 7971; G2 XOR 16980 21013 7970;
  G2 AND 7971 7970 7969; G2 XOR 21074 21011 3058; G2 XOR 7969 21013 21014; G2 XOR 21077 21014 3055;
  G2 XOR 21141 21014 7968; G2 XOR 21075 21012 3057; G2 XOR 3072 16965 20872; G2 XOR 3071 16966 20873;
  G2 XOR 3069 16968 20875; G2 XOR 3068 16969 20876; G2 XOR 3067 16970 20877; G2 XOR 3066 16971 20878;
  G2 XOR 3065 16972 20879; G2 XOR 3064 16973 20880; G2 XOR 3063 16974 20881; G2 XOR 3062 16975 20882;
  G2 XOR 3061 16976 20883; G2 XOR 3060 16977 20884; G2 XOR 3059 16978 20885; G2 XOR 3058 16979 20886;
  G2 XOR 3057 16980 20887; G2 XOR 3056 16981 20888; G2 XOR 3055 16982 20889; G2 XOR 21062 20999 3070;
  G2 XOR 3070 16967 20874; G2 XOR 16981 21014 7967; G2 AND 7968 7967 7966; G2 XOR 7966 21014 21015;
  G2 XOR 21142 21015 7965; G2 XOR 16982 21015 7964; G2 AND 7965 7964 7963; G2 XOR 21078 21015 3054;
  G2 XOR 7963 21015 21016; G2 XOR 16983 21016 7961; G2 XOR 21143 21016 7962; G2 AND 7962 7961 7960;
  G2 XOR 7960 21016 21017; G2 XOR 21144 21017 7959; G2 XOR 21080 21017 3052; G2 XOR 16984 21017 7958;
  G2 AND 7959 7958 7957; G2 XOR 7957 21017 21018; G2 XOR 21081 21018 3051; G2 XOR 21145 21018 7956;
  G2 XOR 16985 21018 7955; G2 AND 7956 7955 7954; G2 XOR 7954 21018 21019; G2 XOR 21146 21019 7953;
  G2 XOR 21082 21019 3050; G2 XOR 16986 21019 7952; G2 AND 7953 7952 7951; G2 XOR 7951 21019 21020;
  G2 XOR 16987 21020 7949; G2 XOR 21083 21020 3049; G2 XOR 21147 21020 7950; G2 AND 7950 7949 7948;
  G2 XOR 7948 21020 21021; G2 XOR 21148 21021 7947; G2 XOR 21084 21021 3048; G2 XOR 16988 21021 7946;
  G2 AND 7947 7946 7945; G2 XOR 7945 21021 21022; G2 XOR 21085 21022 3047; G2 XOR 16989 21022 7943;
  G2 XOR 21149 21022 7944; G2 AND 7944 7943 7942; G2 XOR 7942 21022 21023; G2 XOR 21086 21023 3046;
  G2 XOR 16990 21023 7940; G2 XOR 21150 21023 7941; G2 AND 7941 7940 7939; G2 XOR 7939 21023 21024;
  G2 XOR 16991 21024 7937; G2 XOR 21087 21024 3045; G2 XOR 3054 16983 20890; G2 XOR 3052 16985 20892;
  G2 XOR 3051 16986 20893; G2 XOR 3050 16987 20894; G2 XOR 3049 16988 20895; G2 XOR 3048 16989 20896;
  G2 XOR 3047 16990 20897; G2 XOR 3046 16991 20898; G2 XOR 3045 16992 20899; G2 XOR 21151 21024 7938;
  G2 AND 7938 7937 7936; G2 XOR 7936 21024 21025; G2 XOR 16992 21025 7934; G2 XOR 21088 21025 3044;
  G2 XOR 3044 16993 20900; G2 XOR 21079 21016 3053; G2 XOR 3053 16984 20891; G2 XOR 21152 21025 7935;
  G2 AND 7935 7934 7933; G2 XOR 7933 21025 21026; G2 XOR 16993 21026 7931; G2 XOR 21089 21026 3043;
  G2 XOR 21153 21026 7932; G2 AND 7932 7931 7930; G2 XOR 7930 21026 21027; G2 XOR 21154 21027 7929;
  G2 XOR 21090 21027 3042; G2 XOR 16994 21027 7928; G2 AND 7929 7928 7927; G2 XOR 7927 21027 21028;
  G2 XOR 21091 21028 3041; G2 XOR 16995 21028 7925; G2 XOR 21155 21028 7926; G2 AND 7926 7925 7924;
  G2 XOR 7924 21028 21029; G2 XOR 21156 21029 7923; G2 XOR 21092 21029 3040; G2 XOR 16996 21029 7922;
  G2 AND 7923 7922 7921; G2 XOR 7921 21029 21030; G2 XOR 16997 21030 7919; G2 XOR 21093 21030 3039;
  G2 XOR 21157 21030 7920; G2 AND 7920 7919 7918; G2 XOR 7918 21030 21031; G2 XOR 16998 21031 7916;
  G2 XOR 21158 21031 7917; G2 AND 7917 7916 7915; G2 XOR 7915 21031 21032; G2 XOR 16999 21032 7913;
  G2 XOR 21095 21032 3037; G2 XOR 21094 21031 3038; G2 XOR 21159 21032 7914; G2 AND 7914 7913 7912;
  G2 XOR 7912 21032 21033; G2 XOR 17000 21033 7910; G2 XOR 21096 21033 3036; G2 XOR 21160 21033 7911;
  G2 AND 7911 7910 7909; G2 XOR 7909 21033 21034; G2 XOR 21097 21034 3035; G2 XOR 17001 21034 7907;
  G2 XOR 21161 21034 7908; G2 AND 7908 7907 7906; G2 XOR 7906 21034 21035; G2 XOR 21098 21035 3034;
  G2 XOR 17002 21035 7904; G2 XOR 3043 16994 20901; G2 XOR 3042 16995 20902; G2 XOR 3041 16996 20903;
  G2 XOR 3040 16997 20904; G2 XOR 3039 16998 20905; G2 XOR 3038 16999 20906; G2 XOR 3037 17000 20907;
  G2 XOR 3036 17001 20908; G2 XOR 3035 17002 20909; G2 XOR 3034 17003 20910; G2 XOR 2972 16648 21162;
  G2 XOR 21162 21035 7905; G2 AND 7905 7904 7903; G2 XOR 7903 21035 21036; G2 XOR 21099 21036 3033;
  G2 XOR 21163 21036 7902; G2 XOR 17003 21036 7901; G2 AND 7902 7901 7900; G2 XOR 7900 21036 21037;
  G2 XOR 21164 21037 7899; G2 XOR 21100 21037 3032; G2 XOR 17004 21037 7898; G2 AND 7899 7898 7897;
  G2 XOR 7897 21037 21038; G2 XOR 17005 21038 7895; G2 XOR 21101 21038 3031; G2 XOR 21165 21038 7896;
  G2 AND 7896 7895 7894; G2 XOR 7894 21038 21039; G2 XOR 17006 21039 7892; G2 XOR 21102 21039 3030;
  G2 XOR 3033 17004 20911; G2 XOR 3031 17006 20913; G2 XOR 3030 17007 20914; G2 XOR 3032 17005 20912;
  G2 XOR 21166 21039 7893; G2 AND 7893 7892 7891; G2 XOR 7891 21039 21040; G2 XOR 17007 21040 7889;
  G2 XOR 21103 21040 3029; G2 XOR 3029 17008 20915; G2 XOR 21167 21040 7890; G2 AND 7890 7889 7888;
  G2 XOR 7888 21040 21041; G2 XOR 21104 21041 3028; G2 XOR 21168 21041 7887; G2 XOR 3028 17009 20916;
  G2 XOR 17008 21041 7886; G2 AND 7887 7886 7885; G2 XOR 7885 21041 21042; G2 XOR 21105 21042 175;
  G1 INV 175 16647; G2 XOR 3033 16647 20975; G2 XOR 3032 16647 20976; G2 XOR 3031 16647 20977;
  G2 XOR 3030 16647 20978; G2 XOR 3029 16647 20979; G2 XOR 3089 16647 20919; G2 XOR 3083 16647 20925;
  G2 XOR 3077 16647 20931; G2 XOR 3071 16647 20937; G2 XOR 3065 16647 20943; G2 XOR 3059 16647 20949;
  G2 XOR 3053 16647 20955; G2 XOR 3047 16647 20961; G2 XOR 3041 16647 20967; G2 XOR 16836 16647 20917;
  G2 AND 20917 16946 20791; G2 XOR 20854 20791 3152; G2 XOR 16947 20791 7883; G2 XOR 3152 16948 20666;
  G2 XOR 3090 16647 20918; G2 XOR 20918 20791 7884; G2 AND 7884 7883 7882; G2 XOR 7882 20791 20792;
  G2 XOR 20855 20792 3151; G2 XOR 20919 20792 7881; G2 XOR 16948 20792 7880; G2 AND 7881 7880 7879;
  G2 XOR 7879 20792 20793; G2 XOR 20856 20793 3150; G2 XOR 16949 20793 7877; G2 XOR 3151 16949 20667;
  G2 XOR 3150 16950 20668; G2 XOR 3085 16647 20923; G2 XOR 3086 16647 20922; G2 XOR 3088 16647 20920;
  G2 XOR 20920 20793 7878; G2 AND 7878 7877 7876; G2 XOR 7876 20793 20794; G2 XOR 20857 20794 3149;
  G2 XOR 16950 20794 7874; G2 XOR 3149 16951 20669; G2 XOR 3087 16647 20921; G2 XOR 20921 20794 7875;
  G2 AND 7875 7874 7873; G2 XOR 7873 20794 20795; G2 XOR 20922 20795 7872; G2 XOR 20858 20795 3148;
  G2 XOR 16951 20795 7871; G2 AND 7872 7871 7870; G2 XOR 7870 20795 20796; G2 XOR 16952 20796 7868;
  G2 XOR 20923 20796 7869; G2 AND 7869 7868 7867; G2 XOR 7867 20796 20797; G2 XOR 20860 20797 3146;
  G2 XOR 16953 20797 7865; G2 XOR 20859 20796 3147; G2 XOR 3148 16952 20670; G2 XOR 3147 16953 20671;
  G2 XOR 3146 16954 20672; G2 XOR 3084 16647 20924; G2 XOR 20924 20797 7866; G2 AND 7866 7865 7864;
  G2 XOR 7864 20797 20798; G2 XOR 20861 20798 3145; G2 XOR 20925 20798 7863; G2 XOR 16954 20798 7862;
  G2 AND 7863 7862 7861; G2 XOR 7861 20798 20799; G2 XOR 20862 20799 3144; G2 XOR 16955 20799 7859;
  G2 XOR 3145 16955 20673; G2 XOR 3144 16956 20674; G2 XOR 3079 16647 20929; G2 XOR 3080 16647 20928;
  G2 XOR 3082 16647 20926; G2 XOR 20926 20799 7860; G2 AND 7860 7859 7858; G2 XOR 7858 20799 20800;
  G2 XOR 20863 20800 3143; G2 XOR 16956 20800 7856; G2 XOR 3143 16957 20675; G2 XOR 3081 16647 20927;
  G2 XOR 20927 20800 7857; G2 AND 7857 7856 7855; G2 XOR 7855 20800 20801; G2 XOR 20928 20801 7854;
  G2 XOR 20864 20801 3142; G2 XOR 16957 20801 7853; G2 AND 7854 7853 7852; G2 XOR 7852 20801 20802;
  G2 XOR 16958 20802 7850; G2 XOR 20929 20802 7851; G2 AND 7851 7850 7849; G2 XOR 7849 20802 20803;
  G2 XOR 20866 20803 3140; G2 XOR 16959 20803 7847; G2 XOR 20865 20802 3141; G2 XOR 3142 16958 20676;
  G2 XOR 3141 16959 20677; G2 XOR 3140 16960 20678; G2 XOR 3078 16647 20930; G2 XOR 20930 20803 7848;
  G2 AND 7848 7847 7846; G2 XOR 7846 20803 20804; G2 XOR 20867 20804 3139; G2 XOR 20931 20804 7845;
  G2 XOR 16960 20804 7844; G2 AND 7845 7844 7843; G2 XOR 7843 20804 20805; G2 XOR 20868 20805 3138;
  G2 XOR 16961 20805 7841; G2 XOR 3139 16961 20679; G2 XOR 3138 16962 20680; G2 XOR 3073 16647 20935;
  G2 XOR 3074 16647 20934; G2 XOR 3076 16647 20932; G2 XOR 20932 20805 7842; G2 AND 7842 7841 7840;
  G2 XOR 7840 20805 20806; G2 XOR 20869 20806 3137; G2 XOR 16962 20806 7838; G2 XOR 3137 16963 20681;
  G2 XOR 3075 16647 20933; G2 XOR 20933 20806 7839; G2 AND 7839 7838 7837; G2 XOR 7837 20806 20807;
  G2 XOR 20934 20807 7836; G2 XOR 20870 20807 3136; G2 XOR 16963 20807 7835; G2 AND 7836 7835 7834;
  G2 XOR 7834 20807 20808; G2 XOR 16964 20808 7832; G2 XOR 20935 20808 7833; G2 AND 7833 7832 7831;
  G2 XOR 7831 20808 20809; G2 XOR 20872 20809 3134; G2 XOR 16965 20809 7829; G2 XOR 20871 20808 3135;
  G2 XOR 3136 16964 20682; G2 XOR 3135 16965 20683; G2 XOR 3134 16966 20684; G2 XOR 3072 16647 20936;
  G2 XOR 20936 20809 7830; G2 AND 7830 7829 7828; G2 XOR 7828 20809 20810; G2 XOR 20873 20810 3133;
  G2 XOR 20937 20810 7827; G2 XOR 16966 20810 7826; G2 AND 7827 7826 7825; G2 XOR 7825 20810 20811;
  G2 XOR 20874 20811 3132; G2 XOR 16967 20811 7823; G2 XOR 3133 16967 20685; G2 XOR 3132 16968 20686;
  G2 XOR 3067 16647 20941; G2 XOR 3068 16647 20940; G2 XOR 3070 16647 20938; G2 XOR 20938 20811 7824;
  G2 AND 7824 7823 7822; G2 XOR 7822 20811 20812; G2 XOR 20875 20812 3131; G2 XOR 16968 20812 7820;
  G2 XOR 3131 16969 20687; G2 XOR 3069 16647 20939; G2 XOR 20939 20812 7821; G2 AND 7821 7820 7819;
  G2 XOR 7819 20812 20813; G2 XOR 20940 20813 7818; G2 XOR 20876 20813 3130; G2 XOR 16969 20813 7817;
  G2 AND 7818 7817 7816; G2 XOR 7816 20813 20814; G2 XOR 16970 20814 7814; G2 XOR 20941 20814 7815;
  G2 AND 7815 7814 7813; G2 XOR 7813 20814 20815; G2 XOR 20878 20815 3128; G2 XOR 16971 20815 7811;
  G2 XOR 20877 20814 3129; G2 XOR 3130 16970 20688; G2 XOR 3129 16971 20689; G2 XOR 3128 16972 20690;
  G2 XOR 3066 16647 20942; G2 XOR 20942 20815 7812; G2 AND 7812 7811 7810; G2 XOR 7810 20815 20816;
  G2 XOR 20879 20816 3127; G2 XOR 20943 20816 7809; G2 XOR 16972 20816 7808; G2 AND 7809 7808 7807;
  G2 XOR 7807 20816 20817; G2 XOR 16973 20817 7805; G2 XOR 20880 20817 3126; G2 XOR 3127 16973 20691;
  G2 XOR 3126 16974 20692; G2 XOR 3061 16647 20947; G2 XOR 3062 16647 20946; G2 XOR 3064 16647 20944;
  G2 XOR 20944 20817 7806; G2 AND 7806 7805 7804; G2 XOR 7804 20817 20818; G2 XOR 16974 20818 7802;
  G2 XOR 20881 20818 3125; G2 XOR 3125 16975 20693; G2 XOR 3063 16647 20945; G2 XOR 20945 20818 7803;
  G2 AND 7803 7802 7801; G2 XOR 7801 20818 20819; G2 XOR 20946 20819 7800; G2 XOR 20882 20819 3124;
  G2 XOR 3124 16976 20694; G2 XOR 16975 20819 7799; G2 AND 7800 7799 7798; G2 XOR 7798 20819 20820;
  G2 XOR 20883 20820 3123; G2 XOR 16976 20820 7796; G2 XOR 3123 16977 20695; G2 XOR 20947 20820 7797;
  G2 AND 7797 7796 7795; G2 XOR 7795 20820 20821; G2 XOR 20884 20821 3122; G2 XOR 3122 16978 20696;
  G2 XOR 16977 20821 7793; G2 XOR 3060 16647 20948; G2 XOR 20948 20821 7794; G2 AND 7794 7793 7792;
  G2 XOR 7792 20821 20822; G2 XOR 20885 20822 3121; G2 XOR 20949 20822 7791; G2 XOR 16978 20822 7790;
  G2 AND 7791 7790 7789; G2 XOR 7789 20822 20823; G2 XOR 20886 20823 3120; G2 XOR 16979 20823 7787;
  G2 XOR 3121 16979 20697; G2 XOR 3120 16980 20698; G2 XOR 3055 16647 20953; G2 XOR 3056 16647 20952;
  G2 XOR 3058 16647 20950; G2 XOR 20950 20823 7788; G2 AND 7788 7787 7786; G2 XOR 7786 20823 20824;
  G2 XOR 16980 20824 7784; G2 XOR 20887 20824 3119; G2 XOR 3119 16981 20699; G2 XOR 3057 16647 20951;
  G2 XOR 20951 20824 7785; G2 AND 7785 7784 7783; G2 XOR 7783 20824 20825; G2 XOR 16981 20825 7781;
  G2 XOR 20888 20825 3118; G2 XOR 3118 16982 20700; G2 XOR 20952 20825 7782; G2 AND 7782 7781 7780;
  G2 XOR 7780 20825 20826; G2 XOR 20889 20826 3117; G2 XOR 16982 20826 7778; G2 XOR 20953 20826 7779;
  G2 AND 7779 7778 7777; G2 XOR 7777 20826 20827; G2 XOR 20890 20827 3116; G2 XOR 16983 20827 7775;
  G2 XOR 3117 16983 20701; G2 XOR 3116 16984 20702; G2 XOR 3054 16647 20954; G2 XOR 20954 20827 7776;
  G2 AND 7776 7775 7774; G2 XOR 7774 20827 20828; G2 XOR 16984 20828 7772; G2 XOR 20891 20828 3115;
  G2 XOR 3115 16985 20703; G2 XOR 20955 20828 7773; G2 AND 7773 7772 7771; G2 XOR 7771 20828 20829;
  G2 XOR 20892 20829 3114; G2 XOR 3114 16986 20704; G2 XOR 16985 20829 7769; G2 XOR 3049 16647 20959;
  G2 XOR 3050 16647 20958; G2 XOR 3052 16647 20956; G2 XOR 20956 20829 7770; G2 AND 7770 7769 7768;
  G2 XOR 7768 20829 20830; G2 XOR 16986 20830 7766; G2 XOR 20893 20830 3113; G2 XOR 3113 16987 20705;
  G2 XOR 3051 16647 20957; G2 XOR 20957 20830 7767; G2 AND 7767 7766 7765; G2 XOR 7765 20830 20831;
  G2 XOR 20894 20831 3112; G2 XOR 3112 16988 20706; G2 XOR 20958 20831 7764; G2 XOR 16987 20831 7763;
  G2 AND 7764 7763 7762; G2 XOR 7762 20831 20832; G2 XOR 20959 20832 7761; G2 XOR 20895 20832 3111;
  G2 XOR 3111 16989 20707; G2 XOR 16988 20832 7760; G2 AND 7761 7760 7759; G2 XOR 7759 20832 20833;
  G2 XOR 16989 20833 7757; G2 XOR 20896 20833 3110; G2 XOR 3110 16990 20708; G2 XOR 3048 16647 20960;
  G2 XOR 20960 20833 7758; G2 AND 7758 7757 7756; G2 XOR 7756 20833 20834; G2 XOR 20897 20834 3109;
  G2 XOR 16990 20834 7754; G2 XOR 3109 16991 20709; G2 XOR 20961 20834 7755; G2 AND 7755 7754 7753;
  G2 XOR 7753 20834 20835; G2 XOR 16991 20835 7751; G2 XOR 20898 20835 3108; G2 XOR 3108 16992 20710;
  G2 XOR 3043 16647 20965; G2 XOR 3044 16647 20964; G2 XOR 3046 16647 20962; G2 XOR 20962 20835 7752;
  G2 AND 7752 7751 7750; G2 XOR 7750 20835 20836; G2 XOR 16992 20836 7748; G2 XOR 20899 20836 3107;
  G2 XOR 3107 16993 20711; G2 XOR 3045 16647 20963; G2 XOR 20963 20836 7749; G2 AND 7749 7748 7747;
  G2 XOR 7747 20836 20837; G2 XOR 20900 20837 3106; G2 XOR 3106 16994 20712; G2 XOR 20964 20837 7746;
  G2 XOR 16993 20837 7745; G2 AND 7746 7745 7744; G2 XOR 7744 20837 20838; G2 XOR 20901 20838 3105;
  G2 XOR 3105 16995 20713; G2 XOR 16994 20838 7742; G2 XOR 20965 20838 7743; G2 AND 7743 7742 7741;
  G2 XOR 7741 20838 20839; G2 XOR 16995 20839 7739; G2 XOR 20902 20839 3104; G2 XOR 3104 16996 20714;
  G2 XOR 3042 16647 20966; G2 XOR 20966 20839 7740; G2 AND 7740 7739 7738; G2 XOR 7738 20839 20840;
  G2 XOR 20903 20840 3103; G2 XOR 20967 20840 7737; G2 XOR 16996 20840 7736; G2 AND 7737 7736 7735;
  G2 XOR 7735 20840 20841; G2 XOR 20904 20841 3102; G2 XOR 16997 20841 7733; G2 XOR 3103 16997 20715;
  G2 XOR 3102 16998 20716; G2 XOR 3037 16647 20971; G2 XOR 3038 16647 20970; G2 XOR 3040 16647 20968;
  G2 XOR 20968 20841 7734; G2 AND 7734 7733 7732; G2 XOR 7732 20841 20842; G2 XOR 20905 20842 3101;
  G2 XOR 16998 20842 7730; G2 XOR 3101 16999 20717; G2 XOR 3039 16647 20969; G2 XOR 20969 20842 7731;
  G2 AND 7731 7730 7729; G2 XOR 7729 20842 20843; G2 XOR 16999 20843 7727; G2 XOR 20906 20843 3100;
  G2 XOR 20970 20843 7728; G2 XOR 3100 17000 20718; G2 AND 7728 7727 7726; G2 XOR 7726 20843 20844;
  G2 XOR 20907 20844 3099; G2 XOR 17000 20844 7724; G2 XOR 20971 20844 7725; G2 AND 7725 7724 7723;
  G2 XOR 3099 17001 20719; G2 XOR 7723 20844 20845; G2 XOR 17001 20845 7721; G2 XOR 20908 20845 3098;
  G2 XOR 3098 17002 20720; G2 XOR 3036 16647 20972; G2 XOR 20972 20845 7722; G2 AND 7722 7721 7720;
  G2 XOR 3035 16647 20973; G2 XOR 7720 20845 20846; G2 XOR 20973 20846 7719; G2 XOR 17002 20846 7718;
  G2 XOR 20909 20846 3097; G2 XOR 3097 17003 20721; G2 AND 16647 4535 17531; G2 AND 7719 7718 7717;
  G2 XOR 7717 20846 20847; G2 XOR 20910 20847 3096; G2 XOR 3096 17004 20722; G2 XOR 17003 20847 7715;
  G2 XOR 3034 16647 20974; G2 XOR 20974 20847 7716; G2 AND 7716 7715 7714; G2 XOR 7714 20847 20848;
  G2 XOR 20975 20848 7713; G2 XOR 20911 20848 3095; G2 XOR 17004 20848 7712; G2 XOR 3095 17005 20723;
  G2 AND 7713 7712 7711; G2 XOR 7711 20848 20849; G2 XOR 20976 20849 7710; G2 XOR 20912 20849 3094;
  G2 XOR 3094 17006 20724; G2 XOR 17005 20849 7709; G2 AND 7710 7709 7708; G2 XOR 7708 20849 20850;
  G2 XOR 17006 20850 7706; G2 XOR 20977 20850 7707; G2 AND 7707 7706 7705; G2 XOR 7705 20850 20851;
  G2 XOR 20914 20851 3092; G2 XOR 3092 17008 20726; G2 XOR 20978 20851 7704; G2 XOR 17007 20851 7703;
  G2 AND 7704 7703 7702; G2 XOR 7702 20851 20852; G2 XOR 20915 20852 3091; G2 XOR 3091 17009 20727;
  G2 XOR 20979 20852 7701; G2 XOR 17008 20852 7700; G2 AND 7701 7700 7699; G2 XOR 7699 20852 20853;
  G2 XOR 20916 20853 176; G1 INV 176 16646; G2 XOR 3096 16646 20786; G2 XOR 3092 16646 20790;
  G2 XOR 3151 16646 20731; G2 XOR 3145 16646 20737; G2 XOR 3139 16646 20743; G2 XOR 3133 16646 20749;
  G2 XOR 3127 16646 20755; G2 XOR 3121 16646 20761; G2 XOR 3115 16646 20767; G2 XOR 3109 16646 20773;
  G2 XOR 3103 16646 20779; G2 XOR 3095 16646 20787; G2 XOR 3153 16646 20729; G2 XOR 16835 16646 20728;
  G2 AND 20728 16946 20602; G2 XOR 20665 20602 3215; G2 XOR 16947 20602 7697; G2 XOR 20729 20602 7698;
  G2 AND 7698 7697 7696; G2 XOR 7696 20602 20603; G2 XOR 20666 20603 3214; G2 XOR 16948 20603 7694;
  G2 XOR 3215 16948 20477; G2 XOR 3214 16949 20478; G2 XOR 3152 16646 20730; G2 XOR 20730 20603 7695;
  G2 XOR 3147 16646 20735; G2 XOR 3148 16646 20734; G2 XOR 3150 16646 20732; G2 XOR 3149 16646 20733;
  G2 XOR 3146 16646 20736; G2 XOR 3141 16646 20741; G2 XOR 3142 16646 20740; G2 XOR 3144 16646 20738;
  G2 XOR 3143 16646 20739; G2 XOR 3140 16646 20742; G2 XOR 3135 16646 20747; G2 XOR 3136 16646 20746;
  G2 XOR 3138 16646 20744; G2 XOR 3137 16646 20745; G2 XOR 3134 16646 20748; G2 XOR 3129 16646 20753;
  G2 XOR 3130 16646 20752; G2 XOR 3132 16646 20750; G2 XOR 3131 16646 20751; G2 XOR 3128 16646 20754;
  G2 XOR 3123 16646 20759; G2 XOR 3124 16646 20758; G2 XOR 3126 16646 20756; G2 XOR 3125 16646 20757;
  G2 XOR 3122 16646 20760; G2 XOR 3117 16646 20765; G2 XOR 3118 16646 20764; G2 XOR 3120 16646 20762;
  G2 XOR 3119 16646 20763; G2 XOR 3116 16646 20766; G2 XOR 3111 16646 20771; G2 XOR 3112 16646 20770;
  G2 XOR 3114 16646 20768; G2 XOR 3113 16646 20769; G2 XOR 3110 16646 20772; G2 XOR 3105 16646 20777;
  G2 XOR 3106 16646 20776; G2 XOR 3108 16646 20774; G2 XOR 3107 16646 20775; G2 XOR 3104 16646 20778;
  G2 XOR 3099 16646 20783; G2 XOR 3100 16646 20782; G2 XOR 3102 16646 20780; G2 XOR 3101 16646 20781;
  G2 XOR 3098 16646 20784; G2 XOR 3094 16646 20788; G2 AND 16646 4535 17530; G2 AND 7695 7694 7693;
  G2 XOR 7693 20603 20604; G2 XOR 20667 20604 3213; G2 XOR 16949 20604 7691; G2 XOR 20731 20604 7692;
  G2 AND 7692 7691 7690; G2 XOR 7690 20604 20605; G2 XOR 16950 20605 7688; G2 XOR 20668 20605 3212;
  G2 XOR 20732 20605 7689; G2 AND 7689 7688 7687; G2 XOR 7687 20605 20606; G2 XOR 20733 20606 7686;
  G2 XOR 20669 20606 3211; G2 XOR 16951 20606 7685; G2 AND 7686 7685 7684; G2 XOR 7684 20606 20607;
  G2 XOR 16952 20607 7682; G2 XOR 20734 20607 7683; G2 AND 7683 7682 7681; G2 XOR 7681 20607 20608;
  G2 XOR 20671 20608 3209; G2 XOR 16953 20608 7679; G2 XOR 20735 20608 7680; G2 AND 7680 7679 7678;
  G2 XOR 7678 20608 20609; G2 XOR 20672 20609 3208; G2 XOR 20736 20609 7677; G2 XOR 16954 20609 7676;
  G2 XOR 20670 20607 3210; G2 AND 7677 7676 7675; G2 XOR 7675 20609 20610; G2 XOR 20673 20610 3207;
  G2 XOR 16955 20610 7673; G2 XOR 20737 20610 7674; G2 AND 7674 7673 7672; G2 XOR 7672 20610 20611;
  G2 XOR 16956 20611 7670; G2 XOR 20674 20611 3206; G2 XOR 20738 20611 7671; G2 AND 7671 7670 7669;
  G2 XOR 7669 20611 20612; G2 XOR 20739 20612 7668; G2 XOR 20675 20612 3205; G2 XOR 16957 20612 7667;
  G2 AND 7668 7667 7666; G2 XOR 7666 20612 20613; G2 XOR 16958 20613 7664; G2 XOR 20740 20613 7665;
  G2 AND 7665 7664 7663; G2 XOR 7663 20613 20614; G2 XOR 20677 20614 3203; G2 XOR 16959 20614 7661;
  G2 XOR 20741 20614 7662; G2 AND 7662 7661 7660; G2 XOR 7660 20614 20615; G2 XOR 20678 20615 3202;
  G2 XOR 20742 20615 7659; G2 XOR 16960 20615 7658; G2 XOR 20676 20613 3204; G2 AND 7659 7658 7657;
  G2 XOR 7657 20615 20616; G2 XOR 20679 20616 3201; G2 XOR 16961 20616 7655; G2 XOR 20743 20616 7656;
  G2 AND 7656 7655 7654; G2 XOR 7654 20616 20617; G2 XOR 20680 20617 3200; G2 XOR 20744 20617 7653;
  G2 XOR 3213 16950 20479; G2 XOR 3212 16951 20480; G2 XOR 3211 16952 20481; G2 XOR 3210 16953 20482;
  G2 XOR 3209 16954 20483; G2 XOR 3208 16955 20484; G2 XOR 3207 16956 20485; G2 XOR 3206 16957 20486;
  G2 XOR 3205 16958 20487; G2 XOR 3204 16959 20488; G2 XOR 3203 16960 20489; G2 XOR 3202 16961 20490;
  G2 XOR 3201 16962 20491; G2 XOR 3200 16963 20492; G2 XOR 20913 20850 3093; G2 XOR 3093 17007 20725;
  G2 XOR 3093 16646 20789; G2 XOR 16962 20617 7652; G2 AND 7653 7652 7651; G2 XOR 7651 20617 20618;
  G2 XOR 20745 20618 7650; G2 XOR 20681 20618 3199; G2 XOR 16963 20618 7649; G2 AND 7650 7649 7648;
  G2 XOR 7648 20618 20619; G2 XOR 20682 20619 3198; G2 XOR 20746 20619 7647; G2 XOR 3199 16964 20493;
  G2 XOR 3198 16965 20494; G2 XOR 16964 20619 7646; G2 AND 7647 7646 7645; G2 XOR 7645 20619 20620;
  G2 XOR 20683 20620 3197; G2 XOR 16965 20620 7643; G2 XOR 20747 20620 7644; G2 AND 7644 7643 7642;
  G2 XOR 7642 20620 20621; G2 XOR 20748 20621 7641; G2 XOR 20684 20621 3196; G2 XOR 16966 20621 7640;
  G2 AND 7641 7640 7639; G2 XOR 7639 20621 20622; G2 XOR 20749 20622 7638; G2 XOR 20685 20622 3195;
  G2 XOR 3197 16966 20495; G2 XOR 3196 16967 20496; G2 XOR 3195 16968 20497; G2 XOR 16967 20622 7637;
  G2 AND 7638 7637 7636; G2 XOR 7636 20622 20623; G2 XOR 16968 20623 7634; G2 XOR 20686 20623 3194;
  G2 XOR 20750 20623 7635; G2 XOR 3194 16969 20498; G2 AND 7635 7634 7633; G2 XOR 7633 20623 20624;
  G2 XOR 20687 20624 3193; G2 XOR 16969 20624 7631; G2 XOR 20751 20624 7632; G2 AND 7632 7631 7630;
  G2 XOR 7630 20624 20625; G2 XOR 20752 20625 7629; G2 XOR 16970 20625 7628; G2 AND 7629 7628 7627;
  G2 XOR 7627 20625 20626; G2 XOR 20689 20626 3191; G2 XOR 16971 20626 7625; G2 XOR 3193 16970 20499;
  G2 XOR 3191 16972 20501; G2 XOR 20688 20625 3192; G2 XOR 3192 16971 20500; G2 XOR 20753 20626 7626;
  G2 AND 7626 7625 7624; G2 XOR 7624 20626 20627; G2 XOR 20754 20627 7623; G2 XOR 16972 20627 7622;
  G2 XOR 20690 20627 3190; G2 XOR 3190 16973 20502; G2 AND 7623 7622 7621; G2 XOR 7621 20627 20628;
  G2 XOR 20691 20628 3189; G2 XOR 16973 20628 7619; G2 XOR 20755 20628 7620; G2 AND 7620 7619 7618;
  G2 XOR 7618 20628 20629; G2 XOR 16974 20629 7616; G2 XOR 20692 20629 3188; G2 XOR 20756 20629 7617;
  G2 XOR 3189 16974 20503; G2 XOR 3188 16975 20504; G2 AND 7617 7616 7615; G2 XOR 7615 20629 20630;
  G2 XOR 20693 20630 3187; G2 XOR 16975 20630 7613; G2 XOR 20757 20630 7614; G2 AND 7614 7613 7612;
  G2 XOR 7612 20630 20631; G2 XOR 20694 20631 3186; G2 XOR 20758 20631 7611; G2 XOR 16976 20631 7610;
  G2 AND 7611 7610 7609; G2 XOR 7609 20631 20632; G2 XOR 20759 20632 7608; G2 XOR 16977 20632 7607;
  G2 XOR 20695 20632 3185; G2 XOR 3187 16976 20505; G2 XOR 3186 16977 20506; G2 XOR 3185 16978 20507;
  G2 AND 7608 7607 7606; G2 XOR 7606 20632 20633; G2 XOR 20760 20633 7605; G2 XOR 16978 20633 7604;
  G2 AND 7605 7604 7603; G2 XOR 7603 20633 20634; G2 XOR 16979 20634 7601; G2 XOR 20761 20634 7602;
  G2 XOR 20697 20634 3183; G2 XOR 3183 16980 20509; G2 XOR 20696 20633 3184; G2 XOR 3184 16979 20508;
  G2 AND 7602 7601 7600; G2 XOR 7600 20634 20635; G2 XOR 20698 20635 3182; G2 XOR 20762 20635 7599;
  G2 XOR 3182 16981 20510; G2 XOR 16980 20635 7598; G2 AND 7599 7598 7597; G2 XOR 7597 20635 20636;
  G2 XOR 20699 20636 3181; G2 XOR 20763 20636 7596; G2 XOR 16981 20636 7595; G2 AND 7596 7595 7594;
  G2 XOR 7594 20636 20637; G2 XOR 20700 20637 3180; G2 XOR 16982 20637 7592; G2 XOR 3181 16982 20511;
  G2 XOR 3180 16983 20512; G2 XOR 20764 20637 7593; G2 AND 7593 7592 7591; G2 XOR 7591 20637 20638;
  G2 XOR 20701 20638 3179; G2 XOR 20765 20638 7590; G2 XOR 16983 20638 7589; G2 AND 7590 7589 7588;
  G2 XOR 7588 20638 20639; G2 XOR 20702 20639 3178; G2 XOR 20766 20639 7587; G2 XOR 16984 20639 7586;
  G2 AND 7587 7586 7585; G2 XOR 7585 20639 20640; G2 XOR 20767 20640 7584; G2 XOR 20703 20640 3177;
  G2 XOR 16985 20640 7583; G2 AND 7584 7583 7582; G2 XOR 7582 20640 20641; G2 XOR 16986 20641 7580;
  G2 XOR 20704 20641 3176; G2 XOR 3179 16984 20513; G2 XOR 3178 16985 20514; G2 XOR 3177 16986 20515;
  G2 XOR 3176 16987 20516; G2 XOR 20768 20641 7581; G2 AND 7581 7580 7579; G2 XOR 7579 20641 20642;
  G2 XOR 16987 20642 7577; G2 XOR 20769 20642 7578; G2 AND 7578 7577 7576; G2 XOR 7576 20642 20643;
  G2 XOR 16988 20643 7574; G2 XOR 20770 20643 7575; G2 XOR 20706 20643 3174; G2 XOR 20705 20642 3175;
  G2 AND 7575 7574 7573; G2 XOR 7573 20643 20644; G2 XOR 20771 20644 7572; G2 XOR 3175 16988 20517;
  G2 XOR 3174 16989 20518; G2 XOR 20707 20644 3173; G2 XOR 3173 16990 20519; G2 XOR 16989 20644 7571;
  G2 AND 7572 7571 7570; G2 XOR 7570 20644 20645; G2 XOR 16990 20645 7568; G2 XOR 20772 20645 7569;
  G2 AND 7569 7568 7567; G2 XOR 7567 20645 20646; G2 XOR 20773 20646 7566; G2 XOR 16991 20646 7565;
  G2 AND 7566 7565 7564; G2 XOR 20708 20645 3172; G2 XOR 7564 20646 20647; G2 XOR 20774 20647 7563;
  G2 XOR 16992 20647 7562; G2 AND 7563 7562 7561; G2 XOR 20710 20647 3170; G2 XOR 7561 20647 20648;
  G2 XOR 16993 20648 7559; G2 XOR 20775 20648 7560; G2 AND 7560 7559 7558; G2 XOR 20711 20648 3169;
  G2 XOR 3172 16991 20520; G2 XOR 3170 16993 20522; G2 XOR 3169 16994 20523; G2 XOR 20709 20646 3171;
  G2 XOR 3171 16992 20521; G2 XOR 7558 20648 20649; G2 XOR 20776 20649 7557; G2 XOR 20712 20649 3168;
  G2 XOR 3168 16995 20524; G2 XOR 16994 20649 7556; G2 AND 7557 7556 7555; G2 XOR 7555 20649 20650;
  G2 XOR 16995 20650 7553; G2 XOR 20713 20650 3167; G2 XOR 20777 20650 7554; G2 AND 7554 7553 7552;
  G2 XOR 7552 20650 20651; G2 XOR 20714 20651 3166; G2 XOR 20778 20651 7551; G2 XOR 16996 20651 7550;
  G2 AND 7551 7550 7549; G2 XOR 7549 20651 20652; G2 XOR 20715 20652 3165; G2 XOR 16997 20652 7547;
  G2 XOR 3167 16996 20525; G2 XOR 3166 16997 20526; G2 XOR 3165 16998 20527; G2 XOR 20779 20652 7548;
  G2 AND 7548 7547 7546; G2 XOR 7546 20652 20653; G2 XOR 20716 20653 3164; G2 XOR 20780 20653 7545;
  G2 XOR 16998 20653 7544; G2 AND 7545 7544 7543; G2 XOR 7543 20653 20654; G2 XOR 16999 20654 7541;
  G2 XOR 20781 20654 7542; G2 AND 7542 7541 7540; G2 XOR 7540 20654 20655; G2 XOR 20718 20655 3162;
  G2 XOR 20782 20655 7539; G2 XOR 17000 20655 7538; G2 AND 7539 7538 7537; G2 XOR 7537 20655 20656;
  G2 XOR 20783 20656 7536; G2 XOR 17001 20656 7535; G2 AND 7536 7535 7534; G2 XOR 20719 20656 3161;
  G2 XOR 3164 16999 20528; G2 XOR 3162 17001 20530; G2 XOR 3161 17002 20531; G2 XOR 7534 20656 20657;
  G2 XOR 20720 20657 3160; G2 XOR 20784 20657 7533; G2 XOR 3160 17003 20532; G2 XOR 17002 20657 7532;
  G2 XOR 20717 20654 3163; G2 XOR 3163 17000 20529; G2 AND 7533 7532 7531; G2 XOR 7531 20657 20658;
  G2 XOR 17003 20658 7529; G2 XOR 20721 20658 3159; G2 XOR 3159 17004 20533; G2 XOR 3097 16646 20785;
  G2 XOR 20785 20658 7530; G2 AND 7530 7529 7528; G2 XOR 7528 20658 20659; G2 XOR 20786 20659 7527;
  G2 XOR 17004 20659 7526; G2 XOR 20722 20659 3158; G2 XOR 3158 17005 20534; G2 AND 7527 7526 7525;
  G2 XOR 7525 20659 20660; G2 XOR 20723 20660 3157; G2 XOR 20787 20660 7524; G2 XOR 3157 17006 20535;
  G2 XOR 17005 20660 7523; G2 AND 7524 7523 7522; G2 XOR 7522 20660 20661; G2 XOR 17006 20661 7520;
  G2 XOR 20788 20661 7521; G2 XOR 20724 20661 3156; G2 XOR 3156 17007 20536; G2 AND 7521 7520 7519;
  G2 XOR 7519 20661 20662; G2 XOR 20725 20662 3155; G2 XOR 17007 20662 7517; G2 XOR 3155 17008 20537;
  G2 XOR 20789 20662 7518; G2 AND 7518 7517 7516; G2 XOR 7516 20662 20663; G2 XOR 20790 20663 7515;
  G2 XOR 17008 20663 7514; G2 AND 7515 7514 7513; G2 XOR 20726 20663 3154; G2 XOR 3154 17009 20538;
  G2 XOR 7513 20663 20664; G2 XOR 20727 20664 177; G1 INV 177 16645; G2 XOR 3158 16645 20598;
  G2 XOR 3157 16645 20599; G2 XOR 3214 16645 20542; G2 XOR 3208 16645 20548; G2 XOR 3202 16645 20554;
  G2 XOR 3196 16645 20560; G2 XOR 3190 16645 20566; G2 XOR 3184 16645 20572; G2 XOR 3178 16645 20578;
  G2 XOR 3172 16645 20584; G2 XOR 3166 16645 20590; G2 XOR 3155 16645 20601; G2 XOR 3156 16645 20600;
  G2 XOR 3216 16645 20540; G2 XOR 16834 16645 20539; G2 AND 20539 16946 20413; G2 XOR 20476 20413 3278;
  G2 XOR 20540 20413 7512; G2 XOR 16947 20413 7511; G2 XOR 3278 16948 20288; G2 AND 7512 7511 7510;
  G2 XOR 7510 20413 20414; G2 XOR 20477 20414 3277; G2 XOR 16948 20414 7508; G2 XOR 3277 16949 20289;
  G2 XOR 3215 16645 20541; G2 XOR 20541 20414 7509; G2 AND 7509 7508 7507; G2 XOR 7507 20414 20415;
  G2 XOR 20478 20415 3276; G2 XOR 20542 20415 7506; G2 XOR 3276 16950 20290; G2 XOR 3210 16645 20546;
  G2 XOR 3211 16645 20545; G2 XOR 3213 16645 20543; G2 XOR 3212 16645 20544; G2 XOR 3209 16645 20547;
  G2 XOR 3204 16645 20552; G2 XOR 3205 16645 20551; G2 XOR 3207 16645 20549; G2 XOR 3206 16645 20550;
  G2 XOR 3203 16645 20553; G2 XOR 3198 16645 20558; G2 XOR 3199 16645 20557; G2 XOR 3201 16645 20555;
  G2 XOR 3200 16645 20556; G2 XOR 3197 16645 20559; G2 XOR 3192 16645 20564; G2 XOR 3193 16645 20563;
  G2 XOR 3195 16645 20561; G2 XOR 3194 16645 20562; G2 XOR 3191 16645 20565; G2 XOR 3186 16645 20570;
  G2 XOR 3187 16645 20569; G2 XOR 3189 16645 20567; G2 XOR 3188 16645 20568; G2 XOR 3185 16645 20571;
  G2 XOR 3180 16645 20576; G2 XOR 3181 16645 20575; G2 XOR 3183 16645 20573; G2 XOR 3182 16645 20574;
  G2 XOR 3179 16645 20577; G2 XOR 3174 16645 20582; G2 XOR 3175 16645 20581; G2 XOR 3177 16645 20579;
  G2 XOR 3176 16645 20580; G2 XOR 3173 16645 20583; G2 XOR 3168 16645 20588; G2 XOR 3169 16645 20587;
  G2 XOR 3171 16645 20585; G2 XOR 3170 16645 20586; G2 XOR 3167 16645 20589; G2 XOR 3162 16645 20594;
  G2 XOR 3163 16645 20593; G2 XOR 3165 16645 20591; G2 XOR 3164 16645 20592; G2 XOR 3161 16645 20595;
  G2 XOR 3160 16645 20596; G2 AND 16645 4535 17529; G2 XOR 16949 20415 7505; G2 AND 7506 7505 7504;
  G2 XOR 7504 20415 20416; G2 XOR 20543 20416 7503; G2 XOR 20479 20416 3275; G2 XOR 16950 20416 7502;
  G2 AND 7503 7502 7501; G2 XOR 7501 20416 20417; G2 XOR 16951 20417 7499; G2 XOR 20544 20417 7500;
  G2 AND 7500 7499 7498; G2 XOR 7498 20417 20418; G2 XOR 20481 20418 3273; G2 XOR 16952 20418 7496;
  G2 XOR 20545 20418 7497; G2 AND 7497 7496 7495; G2 XOR 3275 16951 20291; G2 XOR 3273 16953 20293;
  G2 XOR 7495 20418 20419; G2 XOR 20482 20419 3272; G2 XOR 20546 20419 7494; G2 XOR 16953 20419 7493;
  G2 AND 7494 7493 7492; G2 XOR 7492 20419 20420; G2 XOR 20483 20420 3271; G2 XOR 16954 20420 7490;
  G2 XOR 3272 16954 20294; G2 XOR 3271 16955 20295; G2 XOR 20547 20420 7491; G2 AND 7491 7490 7489;
  G2 XOR 7489 20420 20421; G2 XOR 20484 20421 3270; G2 XOR 20548 20421 7488; G2 XOR 16955 20421 7487;
  G2 AND 7488 7487 7486; G2 XOR 7486 20421 20422; G2 XOR 20549 20422 7485; G2 XOR 20485 20422 3269;
  G2 XOR 16956 20422 7484; G2 AND 7485 7484 7483; G2 XOR 7483 20422 20423; G2 XOR 16957 20423 7481;
  G2 XOR 20550 20423 7482; G2 AND 7482 7481 7480; G2 XOR 7480 20423 20424; G2 XOR 20487 20424 3267;
  G2 XOR 16958 20424 7478; G2 XOR 20551 20424 7479; G2 AND 7479 7478 7477; G2 XOR 20486 20423 3268;
  G2 XOR 7477 20424 20425; G2 XOR 20552 20425 7476; G2 XOR 16959 20425 7475; G2 XOR 20488 20425 3266;
  G2 AND 7476 7475 7474; G2 XOR 7474 20425 20426; G2 XOR 20489 20426 3265; G2 XOR 16960 20426 7472;
  G2 XOR 20553 20426 7473; G2 AND 7473 7472 7471; G2 XOR 7471 20426 20427; G2 XOR 20490 20427 3264;
  G2 XOR 20554 20427 7470; G2 XOR 16961 20427 7469; G2 AND 7470 7469 7468; G2 XOR 7468 20427 20428;
  G2 XOR 20491 20428 3263; G2 XOR 16962 20428 7466; G2 XOR 20555 20428 7467; G2 AND 7467 7466 7465;
  G2 XOR 7465 20428 20429; G2 XOR 20556 20429 7464; G2 XOR 16963 20429 7463; G2 AND 7464 7463 7462;
  G2 XOR 7462 20429 20430; G2 XOR 16964 20430 7460; G2 XOR 20557 20430 7461; G2 AND 7461 7460 7459;
  G2 XOR 20493 20430 3261; G2 XOR 20492 20429 3262; G2 XOR 7459 20430 20431; G2 XOR 20558 20431 7458;
  G2 XOR 16965 20431 7457; G2 XOR 20494 20431 3260; G2 AND 7458 7457 7456; G2 XOR 7456 20431 20432;
  G2 XOR 16966 20432 7454; G2 XOR 20495 20432 3259; G2 XOR 20559 20432 7455; G2 AND 7455 7454 7453;
  G2 XOR 7453 20432 20433; G2 XOR 20560 20433 7452; G2 XOR 20496 20433 3258; G2 XOR 16967 20433 7451;
  G2 AND 7452 7451 7450; G2 XOR 7450 20433 20434; G2 XOR 16968 20434 7448; G2 XOR 20561 20434 7449;
  G2 AND 7449 7448 7447; G2 XOR 20497 20434 3257; G2 XOR 7447 20434 20435; G2 XOR 16969 20435 7445;
  G2 XOR 20562 20435 7446; G2 AND 7446 7445 7444; G2 XOR 7444 20435 20436; G2 XOR 16970 20436 7442;
  G2 XOR 20563 20436 7443; G2 AND 7443 7442 7441; G2 XOR 20499 20436 3255; G2 XOR 20498 20435 3256;
  G2 XOR 7441 20436 20437; G2 XOR 20564 20437 7440; G2 XOR 16971 20437 7439; G2 XOR 20500 20437 3254;
  G2 AND 7440 7439 7438; G2 XOR 7438 20437 20438; G2 XOR 20501 20438 3253; G2 XOR 16972 20438 7436;
  G2 XOR 20565 20438 7437; G2 AND 7437 7436 7435; G2 XOR 7435 20438 20439; G2 XOR 20502 20439 3252;
  G2 XOR 20566 20439 7434; G2 XOR 16973 20439 7433; G2 AND 7434 7433 7432; G2 XOR 7432 20439 20440;
  G2 XOR 20567 20440 7431; G2 XOR 20503 20440 3251; G2 XOR 16974 20440 7430; G2 AND 7431 7430 7429;
  G2 XOR 7429 20440 20441; G2 XOR 16975 20441 7427; G2 XOR 20568 20441 7428; G2 AND 7428 7427 7426;
  G2 XOR 7426 20441 20442; G2 XOR 16976 20442 7424; G2 XOR 20569 20442 7425; G2 AND 7425 7424 7423;
  G2 XOR 20505 20442 3249; G2 XOR 20504 20441 3250; G2 XOR 7423 20442 20443; G2 XOR 20506 20443 3248;
  G2 XOR 20570 20443 7422; G2 XOR 16977 20443 7421; G2 AND 7422 7421 7420; G2 XOR 7420 20443 20444;
  G2 XOR 20507 20444 3247; G2 XOR 16978 20444 7418; G2 XOR 20571 20444 7419; G2 AND 7419 7418 7417;
  G2 XOR 7417 20444 20445; G2 XOR 20508 20445 3246; G2 XOR 20572 20445 7416; G2 XOR 16979 20445 7415;
  G2 AND 7416 7415 7414; G2 XOR 7414 20445 20446; G2 XOR 20509 20446 3245; G2 XOR 20573 20446 7413;
  G2 XOR 16980 20446 7412; G2 AND 7413 7412 7411; G2 XOR 7411 20446 20447; G2 XOR 20574 20447 7410;
  G2 XOR 16981 20447 7409; G2 AND 7410 7409 7408; G2 XOR 7408 20447 20448; G2 XOR 16982 20448 7406;
  G2 XOR 20511 20448 3243; G2 XOR 20575 20448 7407; G2 AND 7407 7406 7405; G2 XOR 20510 20447 3244;
  G2 XOR 7405 20448 20449; G2 XOR 20512 20449 3242; G2 XOR 20576 20449 7404; G2 XOR 16983 20449 7403;
  G2 AND 7404 7403 7402; G2 XOR 7402 20449 20450; G2 XOR 16984 20450 7400; G2 XOR 20513 20450 3241;
  G2 XOR 20577 20450 7401; G2 AND 7401 7400 7399; G2 XOR 7399 20450 20451; G2 XOR 20578 20451 7398;
  G2 XOR 20514 20451 3240; G2 XOR 16985 20451 7397; G2 AND 7398 7397 7396; G2 XOR 7396 20451 20452;
  G2 XOR 20579 20452 7395; G2 XOR 20515 20452 3239; G2 XOR 16986 20452 7394; G2 AND 7395 7394 7393;
  G2 XOR 7393 20452 20453; G2 XOR 20580 20453 7392; G2 XOR 16987 20453 7391; G2 AND 7392 7391 7390;
  G2 XOR 7390 20453 20454; G2 XOR 16988 20454 7388; G2 XOR 20517 20454 3237; G2 XOR 20581 20454 7389;
  G2 AND 7389 7388 7387; G2 XOR 20516 20453 3238; G2 XOR 7387 20454 20455; G2 XOR 20518 20455 3236;
  G2 XOR 20582 20455 7386; G2 XOR 16989 20455 7385; G2 AND 7386 7385 7384; G2 XOR 7384 20455 20456;
  G2 XOR 20519 20456 3235; G2 XOR 16990 20456 7382; G2 XOR 20583 20456 7383; G2 AND 7383 7382 7381;
  G2 XOR 7381 20456 20457; G2 XOR 20584 20457 7380; G2 XOR 20520 20457 3234; G2 XOR 16991 20457 7379;
  G2 AND 7380 7379 7378; G2 XOR 7378 20457 20458; G2 XOR 20585 20458 7377; G2 XOR 16992 20458 7376;
  G2 AND 7377 7376 7375; G2 XOR 7375 20458 20459; G2 XOR 16993 20459 7373; G2 XOR 20521 20458 3233;
  G2 XOR 20586 20459 7374; G2 AND 7374 7373 7372; G2 XOR 7372 20459 20460; G2 XOR 16994 20460 7370;
  G2 XOR 20587 20460 7371; G2 AND 7371 7370 7369; G2 XOR 20523 20460 3231; G2 XOR 20522 20459 3232;
  G2 XOR 7369 20460 20461; G2 XOR 20588 20461 7368; G2 XOR 20524 20461 3230; G2 XOR 16995 20461 7367;
  G2 AND 7368 7367 7366; G2 XOR 7366 20461 20462; G2 XOR 20525 20462 3229; G2 XOR 16996 20462 7364;
  G2 XOR 20589 20462 7365; G2 AND 7365 7364 7363; G2 XOR 7363 20462 20463; G2 XOR 20590 20463 7362;
  G2 XOR 20526 20463 3228; G2 XOR 16997 20463 7361; G2 AND 7362 7361 7360; G2 XOR 7360 20463 20464;
  G2 XOR 20591 20464 7359; G2 XOR 20527 20464 3227; G2 XOR 16998 20464 7358; G2 AND 7359 7358 7357;
  G2 XOR 7357 20464 20465; G2 XOR 16999 20465 7355; G2 XOR 20592 20465 7356; G2 AND 7356 7355 7354;
  G2 XOR 7354 20465 20466; G2 XOR 20529 20466 3225; G2 XOR 17000 20466 7352; G2 XOR 20593 20466 7353;
  G2 AND 7353 7352 7351; G2 XOR 20528 20465 3226; G2 XOR 7351 20466 20467; G2 XOR 20530 20467 3224;
  G2 XOR 20594 20467 7350; G2 XOR 17001 20467 7349; G2 AND 7350 7349 7348; G2 XOR 7348 20467 20468;
  G2 XOR 20531 20468 3223; G2 XOR 17002 20468 7346; G2 XOR 20595 20468 7347; G2 AND 7347 7346 7345;
  G2 XOR 7345 20468 20469; G2 XOR 20596 20469 7344; G2 XOR 20532 20469 3222; G2 XOR 17003 20469 7343;
  G2 AND 7344 7343 7342; G2 XOR 7342 20469 20470; G2 XOR 17004 20470 7340; G2 XOR 20533 20470 3221;
  G2 XOR 3270 16956 20296; G2 XOR 3269 16957 20297; G2 XOR 3268 16958 20298; G2 XOR 3267 16959 20299;
  G2 XOR 3266 16960 20300; G2 XOR 3265 16961 20301; G2 XOR 3264 16962 20302; G2 XOR 3263 16963 20303;
  G2 XOR 3262 16964 20304; G2 XOR 3261 16965 20305; G2 XOR 3260 16966 20306; G2 XOR 3259 16967 20307;
  G2 XOR 3258 16968 20308; G2 XOR 3257 16969 20309; G2 XOR 3256 16970 20310; G2 XOR 3255 16971 20311;
  G2 XOR 3254 16972 20312; G2 XOR 3253 16973 20313; G2 XOR 3252 16974 20314; G2 XOR 3251 16975 20315;
  G2 XOR 3250 16976 20316; G2 XOR 3249 16977 20317; G2 XOR 3248 16978 20318; G2 XOR 3247 16979 20319;
  G2 XOR 3246 16980 20320; G2 XOR 3245 16981 20321; G2 XOR 3244 16982 20322; G2 XOR 3243 16983 20323;
  G2 XOR 3242 16984 20324; G2 XOR 3241 16985 20325; G2 XOR 3240 16986 20326; G2 XOR 3239 16987 20327;
  G2 XOR 3238 16988 20328; G2 XOR 3237 16989 20329; G2 XOR 3236 16990 20330; G2 XOR 3235 16991 20331;
  G2 XOR 3234 16992 20332; G2 XOR 3233 16993 20333; G2 XOR 3232 16994 20334; G2 XOR 3231 16995 20335;
  G2 XOR 3230 16996 20336; G2 XOR 3229 16997 20337; G2 XOR 3228 16998 20338; G2 XOR 3227 16999 20339;
  G2 XOR 3226 17000 20340; G2 XOR 3225 17001 20341; G2 XOR 3224 17002 20342; G2 XOR 3223 17003 20343;
  G2 XOR 3222 17004 20344; G2 XOR 3221 17005 20345; G2 XOR 20480 20417 3274; G2 XOR 3274 16952 20292;
  G2 XOR 3159 16645 20597; G2 XOR 20597 20470 7341; G2 AND 7341 7340 7339; G2 XOR 7339 20470 20471;
  G2 XOR 20598 20471 7338; G2 XOR 20534 20471 3220; G2 XOR 17005 20471 7337; G2 XOR 3220 17006 20346;
  G2 AND 7338 7337 7336; G2 XOR 7336 20471 20472; G2 XOR 20599 20472 7335; G2 XOR 17006 20472 7334;
  G2 AND 7335 7334 7333; G2 XOR 7333 20472 20473; G2 XOR 20536 20473 3218; G2 XOR 17007 20473 7331;
  G2 XOR 3218 17008 20348; G2 XOR 20535 20472 3219; G2 XOR 3219 17007 20347; G2 XOR 20600 20473 7332;
  G2 AND 7332 7331 7330; G2 XOR 7330 20473 20474; G2 XOR 20601 20474 7329; G2 XOR 17008 20474 7328;
  G2 AND 7329 7328 7327; G2 XOR 7327 20474 20475; G2 XOR 20538 20475 178; G1 INV 178 16644;
  G2 XOR 3220 16644 20410; G2 XOR 3219 16644 20411; G2 XOR 3218 16644 20412; G2 XOR 3276 16644 20354;
  G2 XOR 3270 16644 20360; G2 XOR 3264 16644 20366; G2 XOR 3258 16644 20372; G2 XOR 3252 16644 20378;
  G2 XOR 3246 16644 20384; G2 XOR 3240 16644 20390; G2 XOR 3234 16644 20396; G2 XOR 3228 16644 20402;
  G2 XOR 3278 16644 20352; G2 XOR 3279 16644 20351; G2 XOR 16833 16644 20350; G2 AND 20350 16946 20224;
  G2 XOR 20287 20224 3341; G2 XOR 20351 20224 7326; G2 XOR 16947 20224 7325; G2 AND 7326 7325 7324;
  G2 XOR 7324 20224 20225; G2 XOR 20352 20225 7323; G2 XOR 20288 20225 3340; G2 XOR 16948 20225 7322;
  G2 AND 7323 7322 7321; G2 XOR 7321 20225 20226; G2 XOR 16949 20226 7319; G2 XOR 20289 20226 3339;
  G2 XOR 3341 16948 20099; G2 XOR 3340 16949 20100; G2 XOR 3339 16950 20101; G2 XOR 3277 16644 20353;
  G2 XOR 20353 20226 7320; G2 AND 7320 7319 7318; G2 XOR 7318 20226 20227; G2 XOR 20354 20227 7317;
  G2 XOR 20290 20227 3338; G2 XOR 16950 20227 7316; G2 AND 7317 7316 7315; G2 XOR 7315 20227 20228;
  G2 XOR 16951 20228 7313; G2 XOR 20291 20228 3337; G2 XOR 3338 16951 20102; G2 XOR 3337 16952 20103;
  G2 XOR 3272 16644 20358; G2 XOR 3273 16644 20357; G2 XOR 3275 16644 20355; G2 XOR 20355 20228 7314;
  G2 AND 7314 7313 7312; G2 XOR 7312 20228 20229; G2 XOR 20292 20229 3336; G2 XOR 16952 20229 7310;
  G2 XOR 3336 16953 20104; G2 XOR 3274 16644 20356; G2 XOR 20356 20229 7311; G2 AND 7311 7310 7309;
  G2 XOR 7309 20229 20230; G2 XOR 20293 20230 3335; G2 XOR 20357 20230 7308; G2 XOR 16953 20230 7307;
  G2 AND 7308 7307 7306; G2 XOR 7306 20230 20231; G2 XOR 20294 20231 3334; G2 XOR 16954 20231 7304;
  G2 XOR 3335 16954 20105; G2 XOR 3334 16955 20106; G2 XOR 3271 16644 20359; G2 XOR 3266 16644 20364;
  G2 XOR 3267 16644 20363; G2 XOR 3269 16644 20361; G2 XOR 3268 16644 20362; G2 XOR 3265 16644 20365;
  G2 XOR 3260 16644 20370; G2 XOR 3261 16644 20369; G2 XOR 3263 16644 20367; G2 XOR 3262 16644 20368;
  G2 XOR 3259 16644 20371; G2 XOR 3254 16644 20376; G2 XOR 3255 16644 20375; G2 XOR 3257 16644 20373;
  G2 XOR 3256 16644 20374; G2 XOR 3253 16644 20377; G2 XOR 3248 16644 20382; G2 XOR 3249 16644 20381;
  G2 XOR 3251 16644 20379; G2 XOR 3250 16644 20380; G2 XOR 3247 16644 20383; G2 XOR 3242 16644 20388;
  G2 XOR 3243 16644 20387; G2 XOR 3245 16644 20385; G2 XOR 3244 16644 20386; G2 XOR 3241 16644 20389;
  G2 XOR 3236 16644 20394; G2 XOR 3237 16644 20393; G2 XOR 3239 16644 20391; G2 XOR 3238 16644 20392;
  G2 XOR 3235 16644 20395; G2 XOR 3230 16644 20400; G2 XOR 3231 16644 20399; G2 XOR 3233 16644 20397;
  G2 XOR 3232 16644 20398; G2 XOR 3229 16644 20401; G2 XOR 3224 16644 20406; G2 XOR 3225 16644 20405;
  G2 XOR 3227 16644 20403; G2 XOR 3226 16644 20404; G2 XOR 3223 16644 20407; G2 AND 16644 4535 17528;
  G2 XOR 20358 20231 7305; G2 AND 7305 7304 7303; G2 XOR 7303 20231 20232; G2 XOR 20295 20232 3333;
  G2 XOR 20359 20232 7302; G2 XOR 3333 16956 20107; G2 XOR 16955 20232 7301; G2 AND 7302 7301 7300;
  G2 XOR 7300 20232 20233; G2 XOR 20360 20233 7299; G2 XOR 20296 20233 3332; G2 XOR 16956 20233 7298;
  G2 AND 7299 7298 7297; G2 XOR 7297 20233 20234; G2 XOR 16957 20234 7295; G2 XOR 20361 20234 7296;
  G2 AND 7296 7295 7294; G2 XOR 7294 20234 20235; G2 XOR 20298 20235 3330; G2 XOR 16958 20235 7292;
  G2 XOR 20362 20235 7293; G2 AND 7293 7292 7291; G2 XOR 20297 20234 3331; G2 XOR 3332 16957 20108;
  G2 XOR 3331 16958 20109; G2 XOR 3330 16959 20110; G2 XOR 7291 20235 20236; G2 XOR 20363 20236 7290;
  G2 XOR 16959 20236 7289; G2 XOR 20299 20236 3329; G2 XOR 3329 16960 20111; G2 AND 7290 7289 7288;
  G2 XOR 7288 20236 20237; G2 XOR 16960 20237 7286; G2 XOR 20300 20237 3328; G2 XOR 3328 16961 20112;
  G2 XOR 20364 20237 7287; G2 AND 7287 7286 7285; G2 XOR 7285 20237 20238; G2 XOR 20365 20238 7284;
  G2 XOR 16961 20238 7283; G2 AND 7284 7283 7282; G2 XOR 7282 20238 20239; G2 XOR 16962 20239 7280;
  G2 XOR 20302 20239 3326; G2 XOR 3326 16963 20114; G2 XOR 20301 20238 3327; G2 XOR 3327 16962 20113;
  G2 XOR 20366 20239 7281; G2 AND 7281 7280 7279; G2 XOR 7279 20239 20240; G2 XOR 16963 20240 7277;
  G2 XOR 20367 20240 7278; G2 AND 7278 7277 7276; G2 XOR 7276 20240 20241; G2 XOR 20368 20241 7275;
  G2 XOR 16964 20241 7274; G2 AND 7275 7274 7273; G2 XOR 20304 20241 3324; G2 XOR 3324 16965 20116;
  G2 XOR 7273 20241 20242; G2 XOR 20369 20242 7272; G2 XOR 16965 20242 7271; G2 AND 7272 7271 7270;
  G2 XOR 7270 20242 20243; G2 XOR 20370 20243 7269; G2 XOR 20306 20243 3322; G2 XOR 3322 16967 20118;
  G2 XOR 16966 20243 7268; G2 AND 7269 7268 7267; G2 XOR 7267 20243 20244; G2 XOR 16967 20244 7265;
  G2 XOR 20307 20244 3321; G2 XOR 20371 20244 7266; G2 AND 7266 7265 7264; G2 XOR 7264 20244 20245;
  G2 XOR 20372 20245 7263; G2 XOR 20308 20245 3320; G2 XOR 16968 20245 7262; G2 XOR 3321 16968 20119;
  G2 XOR 3320 16969 20120; G2 AND 7263 7262 7261; G2 XOR 7261 20245 20246; G2 XOR 20309 20246 3319;
  G2 XOR 20373 20246 7260; G2 XOR 3319 16970 20121; G2 XOR 16969 20246 7259; G2 AND 7260 7259 7258;
  G2 XOR 7258 20246 20247; G2 XOR 20374 20247 7257; G2 XOR 20310 20247 3318; G2 XOR 16970 20247 7256;
  G2 AND 7257 7256 7255; G2 XOR 7255 20247 20248; G2 XOR 20311 20248 3317; G2 XOR 20375 20248 7254;
  G2 XOR 3318 16971 20122; G2 XOR 3317 16972 20123; G2 XOR 16971 20248 7253; G2 AND 7254 7253 7252;
  G2 XOR 7252 20248 20249; G2 XOR 20376 20249 7251; G2 XOR 20312 20249 3316; G2 XOR 16972 20249 7250;
  G2 AND 7251 7250 7249; G2 XOR 7249 20249 20250; G2 XOR 20377 20250 7248; G2 XOR 16973 20250 7247;
  G2 AND 7248 7247 7246; G2 XOR 7246 20250 20251; G2 XOR 20314 20251 3314; G2 XOR 16974 20251 7244;
  G2 XOR 3316 16973 20124; G2 XOR 3314 16975 20126; G2 XOR 20313 20250 3315; G2 XOR 3315 16974 20125;
  G2 XOR 20378 20251 7245; G2 AND 7245 7244 7243; G2 XOR 7243 20251 20252; G2 XOR 16975 20252 7241;
  G2 XOR 20315 20252 3313; G2 XOR 20379 20252 7242; G2 AND 7242 7241 7240; G2 XOR 7240 20252 20253;
  G2 XOR 16976 20253 7238; G2 XOR 20380 20253 7239; G2 AND 7239 7238 7237; G2 XOR 7237 20253 20254;
  G2 XOR 16977 20254 7235; G2 XOR 20381 20254 7236; G2 AND 7236 7235 7234; G2 XOR 7234 20254 20255;
  G2 XOR 20382 20255 7233; G2 XOR 16978 20255 7232; G2 AND 7233 7232 7231; G2 XOR 20318 20255 3310;
  G2 XOR 7231 20255 20256; G2 XOR 16979 20256 7229; G2 XOR 20319 20256 3309; G2 XOR 20316 20253 3312;
  G2 XOR 20383 20256 7230; G2 AND 7230 7229 7228; G2 XOR 7228 20256 20257; G2 XOR 16980 20257 7226;
  G2 XOR 20320 20257 3308; G2 XOR 20384 20257 7227; G2 XOR 3313 16976 20127; G2 XOR 3312 16977 20128;
  G2 XOR 3310 16979 20130; G2 XOR 3309 16980 20131; G2 XOR 3308 16981 20132; G2 XOR 20317 20254 3311;
  G2 XOR 3311 16978 20129; G2 AND 7227 7226 7225; G2 XOR 7225 20257 20258; G2 XOR 20385 20258 7224;
  G2 XOR 20321 20258 3307; G2 XOR 16981 20258 7223; G2 AND 7224 7223 7222; G2 XOR 7222 20258 20259;
  G2 XOR 20386 20259 7221; G2 XOR 16982 20259 7220; G2 AND 7221 7220 7219; G2 XOR 7219 20259 20260;
  G2 XOR 20387 20260 7218; G2 XOR 16983 20260 7217; G2 AND 7218 7217 7216; G2 XOR 7216 20260 20261;
  G2 XOR 20388 20261 7215; G2 XOR 16984 20261 7214; G2 AND 7215 7214 7213; G2 XOR 7213 20261 20262;
  G2 XOR 20389 20262 7212; G2 XOR 16985 20262 7211; G2 AND 7212 7211 7210; G2 XOR 7210 20262 20263;
  G2 XOR 16986 20263 7208; G2 XOR 20390 20263 7209; G2 XOR 20324 20261 3304; G2 XOR 20323 20260 3305;
  G2 XOR 20325 20262 3303; G2 XOR 20322 20259 3306; G2 AND 7209 7208 7207; G2 XOR 7207 20263 20264;
  G2 XOR 16987 20264 7205; G2 XOR 20327 20264 3301; G2 XOR 20326 20263 3302; G2 XOR 20391 20264 7206;
  G2 AND 7206 7205 7204; G2 XOR 7204 20264 20265; G2 XOR 20328 20265 3300; G2 XOR 16988 20265 7202;
  G2 XOR 3307 16982 20133; G2 XOR 3306 16983 20134; G2 XOR 3305 16984 20135; G2 XOR 3304 16985 20136;
  G2 XOR 3303 16986 20137; G2 XOR 3302 16987 20138; G2 XOR 3301 16988 20139; G2 XOR 3300 16989 20140;
  G2 XOR 20392 20265 7203; G2 AND 7203 7202 7201; G2 XOR 7201 20265 20266; G2 XOR 20393 20266 7200;
  G2 XOR 16989 20266 7199; G2 AND 7200 7199 7198; G2 XOR 7198 20266 20267; G2 XOR 16990 20267 7196;
  G2 XOR 20394 20267 7197; G2 AND 7197 7196 7195; G2 XOR 20329 20266 3299; G2 XOR 3299 16990 20141;
  G2 XOR 7195 20267 20268; G2 XOR 20331 20268 3297; G2 XOR 20395 20268 7194; G2 XOR 16991 20268 7193;
  G2 AND 7194 7193 7192; G2 XOR 7192 20268 20269; G2 XOR 16992 20269 7190; G2 XOR 20396 20269 7191;
  G2 AND 7191 7190 7189; G2 XOR 7189 20269 20270; G2 XOR 16993 20270 7187; G2 XOR 20333 20270 3295;
  G2 XOR 20397 20270 7188; G2 AND 7188 7187 7186; G2 XOR 7186 20270 20271; G2 XOR 20334 20271 3294;
  G2 XOR 16994 20271 7184; G2 XOR 20398 20271 7185; G2 AND 7185 7184 7183; G2 XOR 7183 20271 20272;
  G2 XOR 20335 20272 3293; G2 XOR 20332 20269 3296; G2 XOR 20399 20272 7182; G2 XOR 16995 20272 7181;
  G2 AND 7182 7181 7180; G2 XOR 7180 20272 20273; G2 XOR 16996 20273 7178; G2 XOR 20400 20273 7179;
  G2 XOR 20336 20273 3292; G2 AND 7179 7178 7177; G2 XOR 7177 20273 20274; G2 XOR 16997 20274 7175;
  G2 XOR 20337 20274 3291; G2 XOR 20401 20274 7176; G2 AND 7176 7175 7174; G2 XOR 7174 20274 20275;
  G2 XOR 20402 20275 7173; G2 XOR 20338 20275 3290; G2 XOR 16998 20275 7172; G2 AND 7173 7172 7171;
  G2 XOR 7171 20275 20276; G2 XOR 20339 20276 3289; G2 XOR 16999 20276 7169; G2 XOR 20403 20276 7170;
  G2 AND 7170 7169 7168; G2 XOR 7168 20276 20277; G2 XOR 20404 20277 7167; G2 XOR 20340 20277 3288;
  G2 XOR 17000 20277 7166; G2 XOR 3297 16992 20143; G2 XOR 3296 16993 20144; G2 XOR 3295 16994 20145;
  G2 XOR 3294 16995 20146; G2 XOR 3293 16996 20147; G2 XOR 3292 16997 20148; G2 XOR 3291 16998 20149;
  G2 XOR 3290 16999 20150; G2 XOR 3289 17000 20151; G2 XOR 3288 17001 20152; G2 AND 7167 7166 7165;
  G2 XOR 7165 20277 20278; G2 XOR 17001 20278 7163; G2 XOR 20405 20278 7164; G2 XOR 20341 20278 3287;
  G2 AND 7164 7163 7162; G2 XOR 7162 20278 20279; G2 XOR 20342 20279 3286; G2 XOR 17002 20279 7160;
  G2 XOR 20406 20279 7161; G2 AND 7161 7160 7159; G2 XOR 7159 20279 20280; G2 XOR 20343 20280 3285;
  G2 XOR 17003 20280 7157; G2 XOR 3287 17002 20153; G2 XOR 3286 17003 20154; G2 XOR 3285 17004 20155;
  G2 XOR 20407 20280 7158; G2 AND 7158 7157 7156; G2 XOR 7156 20280 20281; G2 XOR 17004 20281 7154;
  G2 XOR 20344 20281 3284; G2 XOR 3284 17005 20156; G2 XOR 20330 20267 3298; G2 XOR 3298 16991 20142;
  G2 XOR 20305 20242 3323; G2 XOR 3323 16966 20117; G2 XOR 20303 20240 3325; G2 XOR 3325 16964 20115;
  G2 XOR 3221 16644 20409; G2 XOR 20537 20474 3217; G2 XOR 3217 17009 20349; G2 XOR 3222 16644 20408;
  G2 XOR 20408 20281 7155; G2 AND 7155 7154 7153; G2 XOR 7153 20281 20282; G2 XOR 20409 20282 7152;
  G2 XOR 17005 20282 7151; G2 AND 7152 7151 7150; G2 XOR 7150 20282 20283; G2 XOR 20410 20283 7149;
  G2 XOR 20346 20283 3282; G2 XOR 17006 20283 7148; G2 AND 7149 7148 7147; G2 XOR 7147 20283 20284;
  G2 XOR 20347 20284 3281; G2 XOR 17007 20284 7145; G2 XOR 20411 20284 7146; G2 AND 7146 7145 7144;
  G2 XOR 7144 20284 20285; G2 XOR 20412 20285 7143; G2 XOR 17008 20285 7142; G2 AND 7143 7142 7141;
  G2 XOR 3281 17008 20159; G2 XOR 20345 20282 3283; G2 XOR 3283 17006 20157; G2 XOR 20348 20285 3280;
  G2 XOR 3280 17009 20160; G2 XOR 3282 17007 20158; G2 XOR 7141 20285 20286; G2 XOR 20349 20286 179;
  G1 INV 179 16643; G2 XOR 3283 16643 20221; G2 XOR 3282 16643 20222; G2 XOR 3281 16643 20223;
  G2 XOR 3339 16643 20165; G2 XOR 3333 16643 20171; G2 XOR 3327 16643 20177; G2 XOR 3321 16643 20183;
  G2 XOR 3315 16643 20189; G2 XOR 3309 16643 20195; G2 XOR 3303 16643 20201; G2 XOR 3297 16643 20207;
  G2 XOR 3291 16643 20213; G2 XOR 3341 16643 20163; G2 XOR 3342 16643 20162; G2 XOR 16832 16643 20161;
  G2 AND 20161 16946 20035; G2 XOR 20098 20035 3404; G2 XOR 16947 20035 7139; G2 XOR 20162 20035 7140;
  G2 AND 7140 7139 7138; G2 XOR 7138 20035 20036; G2 XOR 20099 20036 3403; G2 XOR 20163 20036 7137;
  G2 XOR 16948 20036 7136; G2 AND 7137 7136 7135; G2 XOR 7135 20036 20037; G2 XOR 20100 20037 3402;
  G2 XOR 16949 20037 7133; G2 XOR 3404 16948 19910; G2 XOR 3403 16949 19911; G2 XOR 3402 16950 19912;
  G2 XOR 3340 16643 20164; G2 XOR 20164 20037 7134; G2 AND 7134 7133 7132; G2 XOR 7132 20037 20038;
  G2 XOR 16950 20038 7130; G2 XOR 20165 20038 7131; G2 AND 7131 7130 7129; G2 XOR 7129 20038 20039;
  G2 XOR 20102 20039 3400; G2 XOR 16951 20039 7127; G2 XOR 20101 20038 3401; G2 XOR 3401 16951 19913;
  G2 XOR 3400 16952 19914; G2 XOR 3335 16643 20169; G2 XOR 3336 16643 20168; G2 XOR 3338 16643 20166;
  G2 XOR 20166 20039 7128; G2 AND 7128 7127 7126; G2 XOR 7126 20039 20040; G2 XOR 20103 20040 3399;
  G2 XOR 16952 20040 7124; G2 XOR 3399 16953 19915; G2 XOR 3337 16643 20167; G2 XOR 20167 20040 7125;
  G2 AND 7125 7124 7123; G2 XOR 7123 20040 20041; G2 XOR 20104 20041 3398; G2 XOR 16953 20041 7121;
  G2 XOR 20168 20041 7122; G2 AND 7122 7121 7120; G2 XOR 7120 20041 20042; G2 XOR 20105 20042 3397;
  G2 XOR 20169 20042 7119; G2 XOR 16954 20042 7118; G2 AND 7119 7118 7117; G2 XOR 7117 20042 20043;
  G2 XOR 20106 20043 3396; G2 XOR 16955 20043 7115; G2 XOR 3398 16954 19916; G2 XOR 3397 16955 19917;
  G2 XOR 3396 16956 19918; G2 XOR 3334 16643 20170; G2 XOR 20170 20043 7116; G2 AND 7116 7115 7114;
  G2 XOR 7114 20043 20044; G2 XOR 16956 20044 7112; G2 XOR 20171 20044 7113; G2 AND 7113 7112 7111;
  G2 XOR 7111 20044 20045; G2 XOR 20108 20045 3394; G2 XOR 16957 20045 7109; G2 XOR 20107 20044 3395;
  G2 XOR 3395 16957 19919; G2 XOR 3394 16958 19920; G2 XOR 3329 16643 20175; G2 XOR 3330 16643 20174;
  G2 XOR 3332 16643 20172; G2 XOR 20172 20045 7110; G2 AND 7110 7109 7108; G2 XOR 7108 20045 20046;
  G2 XOR 20109 20046 3393; G2 XOR 16958 20046 7106; G2 XOR 3393 16959 19921; G2 XOR 3331 16643 20173;
  G2 XOR 20173 20046 7107; G2 AND 7107 7106 7105; G2 XOR 7105 20046 20047; G2 XOR 20110 20047 3392;
  G2 XOR 16959 20047 7103; G2 XOR 3392 16960 19922; G2 XOR 3328 16643 20176; G2 XOR 3323 16643 20181;
  G2 XOR 3324 16643 20180; G2 XOR 3326 16643 20178; G2 XOR 3325 16643 20179; G2 XOR 3322 16643 20182;
  G2 XOR 3317 16643 20187; G2 XOR 3318 16643 20186; G2 XOR 3320 16643 20184; G2 XOR 3319 16643 20185;
  G2 XOR 3316 16643 20188; G2 XOR 3311 16643 20193; G2 XOR 3312 16643 20192; G2 XOR 3314 16643 20190;
  G2 XOR 3313 16643 20191; G2 XOR 3310 16643 20194; G2 XOR 3305 16643 20199; G2 XOR 3306 16643 20198;
  G2 XOR 3308 16643 20196; G2 XOR 3307 16643 20197; G2 XOR 3304 16643 20200; G2 XOR 3299 16643 20205;
  G2 XOR 3300 16643 20204; G2 XOR 3302 16643 20202; G2 XOR 3301 16643 20203; G2 XOR 3298 16643 20206;
  G2 XOR 3293 16643 20211; G2 XOR 3294 16643 20210; G2 XOR 3296 16643 20208; G2 XOR 3295 16643 20209;
  G2 XOR 3292 16643 20212; G2 XOR 3287 16643 20217; G2 XOR 3288 16643 20216; G2 XOR 3290 16643 20214;
  G2 XOR 3289 16643 20215; G2 XOR 3286 16643 20218; G2 AND 16643 4535 17527; G2 XOR 3285 16643 20219;
  G2 XOR 20174 20047 7104; G2 AND 7104 7103 7102; G2 XOR 7102 20047 20048; G2 XOR 16960 20048 7100;
  G2 XOR 20111 20048 3391; G2 XOR 3391 16961 19923; G2 XOR 20175 20048 7101; G2 AND 7101 7100 7099;
  G2 XOR 7099 20048 20049; G2 XOR 20112 20049 3390; G2 XOR 3390 16962 19924; G2 XOR 16961 20049 7097;
  G2 XOR 20176 20049 7098; G2 AND 7098 7097 7096; G2 XOR 7096 20049 20050; G2 XOR 20113 20050 3389;
  G2 XOR 16962 20050 7094; G2 XOR 3389 16963 19925; G2 XOR 20177 20050 7095; G2 AND 7095 7094 7093;
  G2 XOR 7093 20050 20051; G2 XOR 20114 20051 3388; G2 XOR 3388 16964 19926; G2 XOR 20178 20051 7092;
  G2 XOR 16963 20051 7091; G2 AND 7092 7091 7090; G2 XOR 7090 20051 20052; G2 XOR 20115 20052 3387;
  G2 XOR 20179 20052 7089; G2 XOR 3387 16965 19927; G2 XOR 16964 20052 7088; G2 AND 7089 7088 7087;
  G2 XOR 7087 20052 20053; G2 XOR 20180 20053 7086; G2 XOR 20116 20053 3386; G2 XOR 16965 20053 7085;
  G2 XOR 3386 16966 19928; G2 AND 7086 7085 7084; G2 XOR 7084 20053 20054; G2 XOR 16966 20054 7082;
  G2 XOR 20117 20054 3385; G2 XOR 3385 16967 19929; G2 XOR 20181 20054 7083; G2 AND 7083 7082 7081;
  G2 XOR 7081 20054 20055; G2 XOR 20118 20055 3384; G2 XOR 16967 20055 7079; G2 XOR 3384 16968 19930;
  G2 XOR 20182 20055 7080; G2 AND 7080 7079 7078; G2 XOR 7078 20055 20056; G2 XOR 20183 20056 7077;
  G2 XOR 20119 20056 3383; G2 XOR 3383 16969 19931; G2 XOR 16968 20056 7076; G2 AND 7077 7076 7075;
  G2 XOR 7075 20056 20057; G2 XOR 20184 20057 7074; G2 XOR 20120 20057 3382; G2 XOR 16969 20057 7073;
  G2 XOR 3382 16970 19932; G2 AND 7074 7073 7072; G2 XOR 7072 20057 20058; G2 XOR 20121 20058 3381;
  G2 XOR 3381 16971 19933; G2 XOR 16970 20058 7070; G2 XOR 20185 20058 7071; G2 AND 7071 7070 7069;
  G2 XOR 7069 20058 20059; G2 XOR 20186 20059 7068; G2 XOR 20122 20059 3380; G2 XOR 16971 20059 7067;
  G2 XOR 3380 16972 19934; G2 AND 7068 7067 7066; G2 XOR 7066 20059 20060; G2 XOR 20187 20060 7065;
  G2 XOR 16972 20060 7064; G2 AND 7065 7064 7063; G2 XOR 7063 20060 20061; G2 XOR 20124 20061 3378;
  G2 XOR 20188 20061 7062; G2 XOR 3378 16974 19936; G2 XOR 16973 20061 7061; G2 AND 7062 7061 7060;
  G2 XOR 7060 20061 20062; G2 XOR 16974 20062 7058; G2 XOR 20189 20062 7059; G2 XOR 20125 20062 3377;
  G2 AND 7059 7058 7057; G2 XOR 7057 20062 20063; G2 XOR 20190 20063 7056; G2 XOR 20126 20063 3376;
  G2 XOR 3377 16975 19937; G2 XOR 3376 16976 19938; G2 XOR 16975 20063 7055; G2 AND 7056 7055 7054;
  G2 XOR 7054 20063 20064; G2 XOR 16976 20064 7052; G2 XOR 20191 20064 7053; G2 XOR 20127 20064 3375;
  G2 XOR 3375 16977 19939; G2 AND 7053 7052 7051; G2 XOR 7051 20064 20065; G2 XOR 20192 20065 7050;
  G2 XOR 16977 20065 7049; G2 AND 7050 7049 7048; G2 XOR 7048 20065 20066; G2 XOR 16978 20066 7046;
  G2 XOR 20129 20066 3373; G2 XOR 3373 16979 19941; G2 XOR 20193 20066 7047; G2 AND 7047 7046 7045;
  G2 XOR 7045 20066 20067; G2 XOR 20194 20067 7044; G2 XOR 16979 20067 7043; G2 AND 7044 7043 7042;
  G2 XOR 20130 20067 3372; G2 XOR 7042 20067 20068; G2 XOR 20131 20068 3371; G2 XOR 16980 20068 7040;
  G2 XOR 20195 20068 7041; G2 AND 7041 7040 7039; G2 XOR 3372 16980 19942; G2 XOR 3371 16981 19943;
  G2 XOR 20128 20065 3374; G2 XOR 3374 16978 19940; G2 XOR 7039 20068 20069; G2 XOR 16981 20069 7037;
  G2 XOR 20196 20069 7038; G2 AND 7038 7037 7036; G2 XOR 7036 20069 20070; G2 XOR 20133 20070 3369;
  G2 XOR 20132 20069 3370; G2 XOR 20197 20070 7035; G2 XOR 16982 20070 7034; G2 AND 7035 7034 7033;
  G2 XOR 7033 20070 20071; G2 XOR 16983 20071 7031; G2 XOR 20198 20071 7032; G2 XOR 20134 20071 3368;
  G2 XOR 3370 16982 19944; G2 XOR 3369 16983 19945; G2 XOR 3368 16984 19946; G2 AND 7032 7031 7030;
  G2 XOR 7030 20071 20072; G2 XOR 20135 20072 3367; G2 XOR 16984 20072 7028; G2 XOR 20199 20072 7029;
  G2 AND 7029 7028 7027; G2 XOR 3367 16985 19947; G2 XOR 7027 20072 20073; G2 XOR 20136 20073 3366;
  G2 XOR 16985 20073 7025; G2 XOR 20200 20073 7026; G2 XOR 3366 16986 19948; G2 AND 7026 7025 7024;
  G2 XOR 7024 20073 20074; G2 XOR 16986 20074 7022; G2 XOR 20201 20074 7023; G2 AND 7023 7022 7021;
  G2 XOR 7021 20074 20075; G2 XOR 20202 20075 7020; G2 XOR 16987 20075 7019; G2 AND 7020 7019 7018;
  G2 XOR 7018 20075 20076; G2 XOR 16988 20076 7016; G2 XOR 20203 20076 7017; G2 AND 7017 7016 7015;
  G2 XOR 7015 20076 20077; G2 XOR 20140 20077 3362; G2 XOR 20138 20075 3364; G2 XOR 16989 20077 7013;
  G2 XOR 3364 16988 19950; G2 XOR 3362 16990 19952; G2 XOR 20139 20076 3363; G2 XOR 3363 16989 19951;
  G2 XOR 20137 20074 3365; G2 XOR 3365 16987 19949; G2 XOR 20204 20077 7014; G2 AND 7014 7013 7012;
  G2 XOR 7012 20077 20078; G2 XOR 20141 20078 3361; G2 XOR 3361 16991 19953; G2 XOR 20205 20078 7011;
  G2 XOR 16990 20078 7010; G2 AND 7011 7010 7009; G2 XOR 7009 20078 20079; G2 XOR 20142 20079 3360;
  G2 XOR 16991 20079 7007; G2 XOR 20206 20079 7008; G2 XOR 3360 16992 19954; G2 AND 7008 7007 7006;
  G2 XOR 7006 20079 20080; G2 XOR 20143 20080 3359; G2 XOR 20207 20080 7005; G2 XOR 16992 20080 7004;
  G2 AND 7005 7004 7003; G2 XOR 7003 20080 20081; G2 XOR 16993 20081 7001; G2 XOR 20208 20081 7002;
  G2 AND 7002 7001 7000; G2 XOR 7000 20081 20082; G2 XOR 20145 20082 3357; G2 XOR 20144 20081 3358;
  G2 XOR 20209 20082 6999; G2 XOR 3359 16993 19955; G2 XOR 3358 16994 19956; G2 XOR 3357 16995 19957;
  G2 XOR 16994 20082 6998; G2 AND 6999 6998 6997; G2 XOR 6997 20082 20083; G2 XOR 20210 20083 6996;
  G2 XOR 16995 20083 6995; G2 AND 6996 6995 6994; G2 XOR 6994 20083 20084; G2 XOR 16996 20084 6992;
  G2 XOR 20147 20084 3355; G2 XOR 20146 20083 3356; G2 XOR 20211 20084 6993; G2 AND 6993 6992 6991;
  G2 XOR 6991 20084 20085; G2 XOR 20148 20085 3354; G2 XOR 16997 20085 6989; G2 XOR 3356 16996 19958;
  G2 XOR 3355 16997 19959; G2 XOR 3354 16998 19960; G2 XOR 20212 20085 6990; G2 AND 6990 6989 6988;
  G2 XOR 6988 20085 20086; G2 XOR 20149 20086 3353; G2 XOR 20213 20086 6987; G2 XOR 3353 16999 19961;
  G2 XOR 16998 20086 6986; G2 AND 6987 6986 6985; G2 XOR 6985 20086 20087; G2 XOR 16999 20087 6983;
  G2 XOR 20214 20087 6984; G2 AND 6984 6983 6982; G2 XOR 20150 20087 3352; G2 XOR 3352 17000 19962;
  G2 XOR 6982 20087 20088; G2 XOR 17000 20088 6980; G2 XOR 20151 20088 3351; G2 XOR 3351 17001 19963;
  G2 XOR 20215 20088 6981; G2 AND 6981 6980 6979; G2 XOR 6979 20088 20089; G2 XOR 20152 20089 3350;
  G2 XOR 17001 20089 6977; G2 XOR 3350 17002 19964; G2 XOR 20216 20089 6978; G2 AND 6978 6977 6976;
  G2 XOR 6976 20089 20090; G2 XOR 20153 20090 3349; G2 XOR 3349 17003 19965; G2 XOR 20217 20090 6975;
  G2 XOR 17002 20090 6974; G2 AND 6975 6974 6973; G2 XOR 6973 20090 20091; G2 XOR 17003 20091 6971;
  G2 XOR 20154 20091 3348; G2 XOR 20218 20091 6972; G2 XOR 3348 17004 19966; G2 AND 6972 6971 6970;
  G2 XOR 6970 20091 20092; G2 XOR 20219 20092 6969; G2 XOR 20155 20092 3347; G2 XOR 3347 17005 19967;
  G2 XOR 17004 20092 6968; G2 AND 6969 6968 6967; G2 XOR 6967 20092 20093; G2 XOR 17005 20093 6965;
  G2 XOR 20156 20093 3346; G2 XOR 3346 17006 19968; G2 XOR 20123 20060 3379; G2 XOR 3379 16973 19935;
  G2 XOR 3284 16643 20220; G2 XOR 20220 20093 6966; G2 AND 6966 6965 6964; G2 XOR 6964 20093 20094;
  G2 XOR 20157 20094 3345; G2 XOR 17006 20094 6962; G2 XOR 3345 17007 19969; G2 XOR 20221 20094 6963;
  G2 AND 6963 6962 6961; G2 XOR 6961 20094 20095; G2 XOR 20158 20095 3344; G2 XOR 3344 17008 19970;
  G2 XOR 20222 20095 6960; G2 XOR 17007 20095 6959; G2 AND 6960 6959 6958; G2 XOR 6958 20095 20096;
  G2 XOR 20159 20096 3343; G2 XOR 3343 17009 19971; G2 XOR 20223 20096 6957; G2 XOR 17008 20096 6956;
  G2 AND 6957 6956 6955; G2 XOR 6955 20096 20097; G2 XOR 20160 20097 180; G1 INV 180 16642;
  G2 XOR 3344 16642 20034; G2 XOR 3401 16642 19977; G2 XOR 3395 16642 19983; G2 XOR 3389 16642 19989;
  G2 XOR 3383 16642 19995; G2 XOR 3377 16642 20001; G2 XOR 3371 16642 20007; G2 XOR 3365 16642 20013;
  G2 XOR 3359 16642 20019; G2 XOR 3353 16642 20025; G2 XOR 3403 16642 19975; G2 XOR 3404 16642 19974;
  G2 XOR 16831 16642 19972; G2 AND 19972 16946 19846; G2 XOR 19909 19846 3467; G2 XOR 16947 19846 6953;
  G2 XOR 3467 16948 19721; G2 XOR 3405 16642 19973; G2 XOR 19973 19846 6954; G2 AND 6954 6953 6952;
  G2 XOR 6952 19846 19847; G2 XOR 16948 19847 6950; G2 XOR 19910 19847 3466; G2 XOR 19974 19847 6951;
  G2 AND 6951 6950 6949; G2 XOR 6949 19847 19848; G2 XOR 19975 19848 6948; G2 XOR 19911 19848 3465;
  G2 XOR 16949 19848 6947; G2 AND 6948 6947 6946; G2 XOR 6946 19848 19849; G2 XOR 16950 19849 6944;
  G2 XOR 3466 16949 19722; G2 XOR 3465 16950 19723; G2 XOR 3402 16642 19976; G2 XOR 19976 19849 6945;
  G2 AND 6945 6944 6943; G2 XOR 6943 19849 19850; G2 XOR 19913 19850 3463; G2 XOR 16951 19850 6941;
  G2 XOR 19977 19850 6942; G2 AND 6942 6941 6940; G2 XOR 6940 19850 19851; G2 XOR 19914 19851 3462;
  G2 XOR 16952 19851 6938; G2 XOR 3463 16952 19725; G2 XOR 3462 16953 19726; G2 XOR 3397 16642 19981;
  G2 XOR 3398 16642 19980; G2 XOR 3400 16642 19978; G2 XOR 19978 19851 6939; G2 AND 6939 6938 6937;
  G2 XOR 6937 19851 19852; G2 XOR 19915 19852 3461; G2 XOR 16953 19852 6935; G2 XOR 3461 16954 19727;
  G2 XOR 3399 16642 19979; G2 XOR 19979 19852 6936; G2 AND 6936 6935 6934; G2 XOR 6934 19852 19853;
  G2 XOR 19916 19853 3460; G2 XOR 19980 19853 6933; G2 XOR 3460 16955 19728; G2 XOR 3396 16642 19982;
  G2 XOR 3391 16642 19987; G2 XOR 3392 16642 19986; G2 XOR 3394 16642 19984; G2 XOR 3393 16642 19985;
  G2 XOR 3390 16642 19988; G2 XOR 3385 16642 19993; G2 XOR 3386 16642 19992; G2 XOR 3388 16642 19990;
  G2 XOR 3387 16642 19991; G2 XOR 3384 16642 19994; G2 XOR 3379 16642 19999; G2 XOR 3380 16642 19998;
  G2 XOR 3382 16642 19996; G2 XOR 3381 16642 19997; G2 XOR 3378 16642 20000; G2 XOR 3373 16642 20005;
  G2 XOR 3374 16642 20004; G2 XOR 3376 16642 20002; G2 XOR 3375 16642 20003; G2 XOR 3372 16642 20006;
  G2 XOR 3367 16642 20011; G2 XOR 3368 16642 20010; G2 XOR 3370 16642 20008; G2 XOR 3369 16642 20009;
  G2 XOR 3366 16642 20012; G2 XOR 3361 16642 20017; G2 XOR 3362 16642 20016; G2 XOR 3364 16642 20014;
  G2 XOR 3363 16642 20015; G2 XOR 3360 16642 20018; G2 XOR 3355 16642 20023; G2 XOR 3356 16642 20022;
  G2 XOR 3358 16642 20020; G2 XOR 3357 16642 20021; G2 XOR 3354 16642 20024; G2 XOR 3349 16642 20029;
  G2 XOR 3350 16642 20028; G2 XOR 3352 16642 20026; G2 XOR 3351 16642 20027; G2 XOR 3348 16642 20030;
  G2 XOR 16954 19853 6932; G2 AND 6933 6932 6931; G2 XOR 6931 19853 19854; G2 XOR 19981 19854 6930;
  G2 XOR 19917 19854 3459; G2 XOR 16955 19854 6929; G2 AND 6930 6929 6928; G2 XOR 6928 19854 19855;
  G2 XOR 16956 19855 6926; G2 XOR 19982 19855 6927; G2 AND 6927 6926 6925; G2 XOR 6925 19855 19856;
  G2 XOR 19919 19856 3457; G2 XOR 16957 19856 6923; G2 XOR 19983 19856 6924; G2 AND 6924 6923 6922;
  G2 XOR 6922 19856 19857; G2 XOR 19920 19857 3456; G2 XOR 19984 19857 6921; G2 XOR 16958 19857 6920;
  G2 AND 6921 6920 6919; G2 XOR 6919 19857 19858; G2 XOR 19921 19858 3455; G2 XOR 16959 19858 6917;
  G2 XOR 19918 19855 3458; G2 XOR 3459 16956 19729; G2 XOR 3458 16957 19730; G2 XOR 3457 16958 19731;
  G2 XOR 3456 16959 19732; G2 XOR 3455 16960 19733; G2 XOR 19985 19858 6918; G2 AND 6918 6917 6916;
  G2 XOR 6916 19858 19859; G2 XOR 19922 19859 3454; G2 XOR 19986 19859 6915; G2 XOR 3454 16961 19734;
  G2 AND 16642 4535 17526; G2 XOR 16960 19859 6914; G2 AND 6915 6914 6913; G2 XOR 6913 19859 19860;
  G2 XOR 16961 19860 6911; G2 XOR 19987 19860 6912; G2 AND 6912 6911 6910; G2 XOR 6910 19860 19861;
  G2 XOR 16962 19861 6908; G2 XOR 19988 19861 6909; G2 AND 6909 6908 6907; G2 XOR 19924 19861 3452;
  G2 XOR 3452 16963 19736; G2 XOR 6907 19861 19862; G2 XOR 19925 19862 3451; G2 XOR 19989 19862 6906;
  G2 XOR 3451 16964 19737; G2 XOR 16963 19862 6905; G2 AND 6906 6905 6904; G2 XOR 6904 19862 19863;
  G2 XOR 19926 19863 3450; G2 XOR 19990 19863 6903; G2 XOR 3450 16965 19738; G2 XOR 16964 19863 6902;
  G2 AND 6903 6902 6901; G2 XOR 6901 19863 19864; G2 XOR 19991 19864 6900; G2 XOR 19927 19864 3449;
  G2 XOR 16965 19864 6899; G2 XOR 3449 16966 19739; G2 AND 6900 6899 6898; G2 XOR 6898 19864 19865;
  G2 XOR 16966 19865 6896; G2 XOR 19928 19865 3448; G2 XOR 3448 16967 19740; G2 XOR 19992 19865 6897;
  G2 AND 6897 6896 6895; G2 XOR 6895 19865 19866; G2 XOR 19993 19866 6894; G2 XOR 19929 19866 3447;
  G2 XOR 16967 19866 6893; G2 XOR 3447 16968 19741; G2 AND 6894 6893 6892; G2 XOR 6892 19866 19867;
  G2 XOR 19930 19867 3446; G2 XOR 16968 19867 6890; G2 XOR 3446 16969 19742; G2 XOR 19994 19867 6891;
  G2 AND 6891 6890 6889; G2 XOR 6889 19867 19868; G2 XOR 19995 19868 6888; G2 XOR 19931 19868 3445;
  G2 XOR 3445 16970 19743; G2 XOR 16969 19868 6887; G2 AND 6888 6887 6886; G2 XOR 6886 19868 19869;
  G2 XOR 19932 19869 3444; G2 XOR 19996 19869 6885; G2 XOR 3444 16971 19744; G2 XOR 16970 19869 6884;
  G2 AND 6885 6884 6883; G2 XOR 6883 19869 19870; G2 XOR 19997 19870 6882; G2 XOR 19933 19870 3443;
  G2 XOR 16971 19870 6881; G2 AND 6882 6881 6880; G2 XOR 6880 19870 19871; G2 XOR 19998 19871 6879;
  G2 XOR 3443 16972 19745; G2 XOR 16972 19871 6878; G2 AND 6879 6878 6877; G2 XOR 6877 19871 19872;
  G2 XOR 19999 19872 6876; G2 XOR 19935 19872 3441; G2 XOR 3441 16974 19747; G2 XOR 16973 19872 6875;
  G2 AND 6876 6875 6874; G2 XOR 6874 19872 19873; G2 XOR 20000 19873 6873; G2 XOR 19936 19873 3440;
  G2 XOR 3440 16975 19748; G2 XOR 19934 19871 3442; G2 XOR 3442 16973 19746; G2 XOR 16974 19873 6872;
  G2 AND 6873 6872 6871; G2 XOR 6871 19873 19874; G2 XOR 20001 19874 6870; G2 XOR 16975 19874 6869;
  G2 AND 6870 6869 6868; G2 XOR 6868 19874 19875; G2 XOR 16976 19875 6866; G2 XOR 20002 19875 6867;
  G2 AND 6867 6866 6865; G2 XOR 6865 19875 19876; G2 XOR 19939 19876 3437; G2 XOR 16977 19876 6863;
  G2 XOR 19937 19874 3439; G2 XOR 3439 16976 19749; G2 XOR 3437 16978 19751; G2 XOR 20003 19876 6864;
  G2 AND 6864 6863 6862; G2 XOR 6862 19876 19877; G2 XOR 19940 19877 3436; G2 XOR 20004 19877 6861;
  G2 XOR 3436 16979 19752; G2 XOR 19938 19875 3438; G2 XOR 3438 16977 19750; G2 XOR 19923 19860 3453;
  G2 XOR 3453 16962 19735; G2 XOR 16978 19877 6860; G2 AND 6861 6860 6859; G2 XOR 6859 19877 19878;
  G2 XOR 16979 19878 6857; G2 XOR 19941 19878 3435; G2 XOR 20005 19878 6858; G2 XOR 3435 16980 19753;
  G2 AND 6858 6857 6856; G2 XOR 6856 19878 19879; G2 XOR 19942 19879 3434; G2 XOR 16980 19879 6854;
  G2 XOR 20006 19879 6855; G2 AND 6855 6854 6853; G2 XOR 3434 16981 19754; G2 XOR 6853 19879 19880;
  G2 XOR 20007 19880 6852; G2 XOR 16981 19880 6851; G2 AND 6852 6851 6850; G2 XOR 6850 19880 19881;
  G2 XOR 20008 19881 6849; G2 XOR 16982 19881 6848; G2 AND 6849 6848 6847; G2 XOR 6847 19881 19882;
  G2 XOR 20009 19882 6846; G2 XOR 19945 19882 3431; G2 XOR 19944 19881 3432; G2 XOR 16983 19882 6845;
  G2 AND 6846 6845 6844; G2 XOR 6844 19882 19883; G2 XOR 16984 19883 6842; G2 XOR 19946 19883 3430;
  G2 XOR 20010 19883 6843; G2 AND 6843 6842 6841; G2 XOR 6841 19883 19884; G2 XOR 16985 19884 6839;
  G2 XOR 19947 19884 3429; G2 XOR 3432 16983 19756; G2 XOR 3431 16984 19757; G2 XOR 3430 16985 19758;
  G2 XOR 3429 16986 19759; G2 XOR 20011 19884 6840; G2 AND 6840 6839 6838; G2 XOR 6838 19884 19885;
  G2 XOR 16986 19885 6836; G2 XOR 19948 19885 3428; G2 XOR 3428 16987 19760; G2 XOR 20012 19885 6837;
  G2 XOR 19943 19880 3433; G2 XOR 3433 16982 19755; G2 AND 6837 6836 6835; G2 XOR 6835 19885 19886;
  G2 XOR 20013 19886 6834; G2 XOR 19949 19886 3427; G2 XOR 3427 16988 19761; G2 XOR 16987 19886 6833;
  G2 AND 6834 6833 6832; G2 XOR 6832 19886 19887; G2 XOR 16988 19887 6830; G2 XOR 20014 19887 6831;
  G2 AND 6831 6830 6829; G2 XOR 6829 19887 19888; G2 XOR 16989 19888 6827; G2 XOR 19951 19888 3425;
  G2 XOR 3425 16990 19763; G2 XOR 20015 19888 6828; G2 AND 6828 6827 6826; G2 XOR 6826 19888 19889;
  G2 XOR 16990 19889 6824; G2 XOR 19952 19889 3424; G2 XOR 3424 16991 19764; G2 XOR 20016 19889 6825;
  G2 AND 6825 6824 6823; G2 XOR 6823 19889 19890; G2 XOR 16991 19890 6821; G2 XOR 19953 19890 3423;
  G2 XOR 20017 19890 6822; G2 AND 6822 6821 6820; G2 XOR 6820 19890 19891; G2 XOR 20018 19891 6819;
  G2 XOR 19954 19891 3422; G2 XOR 16992 19891 6818; G2 AND 6819 6818 6817; G2 XOR 6817 19891 19892;
  G2 XOR 19955 19892 3421; G2 XOR 20019 19892 6816; G2 XOR 16993 19892 6815; G2 AND 6816 6815 6814;
  G2 XOR 3423 16992 19765; G2 XOR 3422 16993 19766; G2 XOR 3421 16994 19767; G2 XOR 19950 19887 3426;
  G2 XOR 3426 16989 19762; G2 XOR 3345 16642 20033; G2 XOR 3346 16642 20032; G2 XOR 19912 19849 3464;
  G2 XOR 3464 16951 19724; G2 XOR 6814 19892 19893; G2 XOR 20020 19893 6813; G2 XOR 16994 19893 6812;
  G2 AND 6813 6812 6811; G2 XOR 6811 19893 19894; G2 XOR 20021 19894 6810; G2 XOR 19956 19893 3420;
  G2 XOR 19957 19894 3419; G2 XOR 16995 19894 6809; G2 AND 6810 6809 6808; G2 XOR 6808 19894 19895;
  G2 XOR 16996 19895 6806; G2 XOR 19958 19895 3418; G2 XOR 20022 19895 6807; G2 AND 6807 6806 6805;
  G2 XOR 6805 19895 19896; G2 XOR 19959 19896 3417; G2 XOR 3420 16995 19768; G2 XOR 3419 16996 19769;
  G2 XOR 3418 16997 19770; G2 XOR 3417 16998 19771; G2 XOR 16997 19896 6803; G2 XOR 20023 19896 6804;
  G2 AND 6804 6803 6802; G2 XOR 6802 19896 19897; G2 XOR 19960 19897 3416; G2 XOR 16998 19897 6800;
  G2 XOR 3416 16999 19772; G2 XOR 20024 19897 6801; G2 AND 6801 6800 6799; G2 XOR 6799 19897 19898;
  G2 XOR 16999 19898 6797; G2 XOR 20025 19898 6798; G2 AND 6798 6797 6796; G2 XOR 6796 19898 19899;
  G2 XOR 20026 19899 6795; G2 XOR 19962 19899 3414; G2 XOR 3414 17001 19774; G2 XOR 17000 19899 6794;
  G2 AND 6795 6794 6793; G2 XOR 6793 19899 19900; G2 XOR 19963 19900 3413; G2 XOR 17001 19900 6791;
  G2 XOR 20027 19900 6792; G2 AND 6792 6791 6790; G2 XOR 6790 19900 19901; G2 XOR 19964 19901 3412;
  G2 XOR 17002 19901 6788; G2 XOR 3413 17002 19775; G2 XOR 3412 17003 19776; G2 XOR 20028 19901 6789;
  G2 AND 6789 6788 6787; G2 XOR 6787 19901 19902; G2 XOR 19965 19902 3411; G2 XOR 20029 19902 6786;
  G2 XOR 17003 19902 6785; G2 AND 6786 6785 6784; G2 XOR 6784 19902 19903; G2 XOR 20030 19903 6783;
  G2 XOR 3411 17004 19777; G2 XOR 19966 19903 3410; G2 XOR 3410 17005 19778; G2 XOR 17004 19903 6782;
  G2 AND 6783 6782 6781; G2 XOR 6781 19903 19904; G2 XOR 17005 19904 6779; G2 XOR 19967 19904 3409;
  G2 XOR 3409 17006 19779; G2 XOR 19961 19898 3415; G2 XOR 3415 17000 19773; G2 XOR 3347 16642 20031;
  G2 XOR 20031 19904 6780; G2 AND 6780 6779 6778; G2 XOR 6778 19904 19905; G2 XOR 19968 19905 3408;
  G2 XOR 3408 17007 19780; G2 XOR 17006 19905 6776; G2 XOR 20032 19905 6777; G2 AND 6777 6776 6775;
  G2 XOR 6775 19905 19906; G2 XOR 17007 19906 6773; G2 XOR 20033 19906 6774; G2 AND 6774 6773 6772;
  G2 XOR 6772 19906 19907; G2 XOR 19970 19907 3406; G2 XOR 20034 19907 6771; G2 XOR 17008 19907 6770;
  G2 XOR 3406 17009 19782; G2 XOR 19969 19906 3407; G2 XOR 3407 17008 19781; G2 AND 6771 6770 6769;
  G2 XOR 6769 19907 19908; G2 XOR 19971 19908 181; G1 INV 181 16641; G2 XOR 3407 16641 19845;
  G2 XOR 3464 16641 19788; G2 XOR 3458 16641 19794; G2 XOR 3452 16641 19800; G2 XOR 3446 16641 19806;
  G2 XOR 3440 16641 19812; G2 XOR 3434 16641 19818; G2 XOR 3428 16641 19824; G2 XOR 3422 16641 19830;
  G2 XOR 3416 16641 19836; G2 XOR 3466 16641 19786; G2 XOR 3467 16641 19785; G2 XOR 16830 16641 19783;
  G2 XOR 3468 16641 19784; G2 XOR 3465 16641 19787; G2 XOR 3460 16641 19792; G2 XOR 3461 16641 19791;
  G2 XOR 3463 16641 19789; G2 XOR 3462 16641 19790; G2 XOR 3459 16641 19793; G2 XOR 3454 16641 19798;
  G2 XOR 3455 16641 19797; G2 XOR 3457 16641 19795; G2 XOR 3456 16641 19796; G2 XOR 3453 16641 19799;
  G2 XOR 3448 16641 19804; G2 XOR 3449 16641 19803; G2 XOR 3451 16641 19801; G2 XOR 3450 16641 19802;
  G2 XOR 3447 16641 19805; G2 XOR 3442 16641 19810; G2 XOR 3443 16641 19809; G2 XOR 3445 16641 19807;
  G2 XOR 3444 16641 19808; G2 XOR 3441 16641 19811; G2 XOR 3436 16641 19816; G2 XOR 3437 16641 19815;
  G2 XOR 3439 16641 19813; G2 XOR 3438 16641 19814; G2 XOR 3435 16641 19817; G2 XOR 3430 16641 19822;
  G2 XOR 3431 16641 19821; G2 XOR 3433 16641 19819; G2 XOR 3432 16641 19820; G2 XOR 3429 16641 19823;
  G2 XOR 3424 16641 19828; G2 XOR 3425 16641 19827; G2 XOR 3427 16641 19825; G2 XOR 3426 16641 19826;
  G2 XOR 3423 16641 19829; G2 XOR 3418 16641 19834; G2 XOR 3419 16641 19833; G2 XOR 3421 16641 19831;
  G2 XOR 3420 16641 19832; G2 XOR 3417 16641 19835; G2 XOR 3412 16641 19840; G2 XOR 3413 16641 19839;
  G2 XOR 3415 16641 19837; G2 XOR 3414 16641 19838; G2 XOR 3411 16641 19841; G2 XOR 3410 16641 19842;
  G2 AND 16641 4535 17525; G2 AND 19783 16946 19657; G2 XOR 19720 19657 3530; G2 XOR 19784 19657 6768;
  G2 XOR 16947 19657 6767; G2 AND 6768 6767 6766; G2 XOR 6766 19657 19658; G2 XOR 19785 19658 6765;
  G2 XOR 19721 19658 3529; G2 XOR 16948 19658 6764; G2 AND 6765 6764 6763; G2 XOR 6763 19658 19659;
  G2 XOR 19722 19659 3528; G2 XOR 16949 19659 6761; G2 XOR 19786 19659 6762; G2 AND 6762 6761 6760;
  G2 XOR 6760 19659 19660; G2 XOR 19723 19660 3527; G2 XOR 16950 19660 6758; G2 XOR 19787 19660 6759;
  G2 AND 6759 6758 6757; G2 XOR 6757 19660 19661; G2 XOR 19724 19661 3526; G2 XOR 19788 19661 6756;
  G2 XOR 16951 19661 6755; G2 AND 6756 6755 6754; G2 XOR 6754 19661 19662; G2 XOR 19725 19662 3525;
  G2 XOR 16952 19662 6752; G2 XOR 19789 19662 6753; G2 AND 6753 6752 6751; G2 XOR 6751 19662 19663;
  G2 XOR 19726 19663 3524; G2 XOR 19790 19663 6750; G2 XOR 16953 19663 6749; G2 AND 6750 6749 6748;
  G2 XOR 6748 19663 19664; G2 XOR 19791 19664 6747; G2 XOR 19727 19664 3523; G2 XOR 16954 19664 6746;
  G2 AND 6747 6746 6745; G2 XOR 6745 19664 19665; G2 XOR 16955 19665 6743; G2 XOR 19792 19665 6744;
  G2 AND 6744 6743 6742; G2 XOR 6742 19665 19666; G2 XOR 19729 19666 3521; G2 XOR 16956 19666 6740;
  G2 XOR 19793 19666 6741; G2 AND 6741 6740 6739; G2 XOR 6739 19666 19667; G2 XOR 19730 19667 3520;
  G2 XOR 19794 19667 6738; G2 XOR 16957 19667 6737; G2 AND 6738 6737 6736; G2 XOR 6736 19667 19668;
  G2 XOR 19731 19668 3519; G2 XOR 16958 19668 6734; G2 XOR 19728 19665 3522; G2 XOR 19795 19668 6735;
  G2 AND 6735 6734 6733; G2 XOR 6733 19668 19669; G2 XOR 19732 19669 3518; G2 XOR 19796 19669 6732;
  G2 XOR 16959 19669 6731; G2 AND 6732 6731 6730; G2 XOR 6730 19669 19670; G2 XOR 19797 19670 6729;
  G2 XOR 19733 19670 3517; G2 XOR 16960 19670 6728; G2 AND 6729 6728 6727; G2 XOR 6727 19670 19671;
  G2 XOR 16961 19671 6725; G2 XOR 19798 19671 6726; G2 AND 6726 6725 6724; G2 XOR 6724 19671 19672;
  G2 XOR 19735 19672 3515; G2 XOR 16962 19672 6722; G2 XOR 19799 19672 6723; G2 AND 6723 6722 6721;
  G2 XOR 6721 19672 19673; G2 XOR 19736 19673 3514; G2 XOR 19800 19673 6720; G2 XOR 16963 19673 6719;
  G2 AND 6720 6719 6718; G2 XOR 6718 19673 19674; G2 XOR 19737 19674 3513; G2 XOR 16964 19674 6716;
  G2 XOR 19734 19671 3516; G2 XOR 19801 19674 6717; G2 AND 6717 6716 6715; G2 XOR 6715 19674 19675;
  G2 XOR 19738 19675 3512; G2 XOR 19802 19675 6714; G2 XOR 3530 16948 19532; G2 XOR 3529 16949 19533;
  G2 XOR 3528 16950 19534; G2 XOR 3527 16951 19535; G2 XOR 3526 16952 19536; G2 XOR 3525 16953 19537;
  G2 XOR 3524 16954 19538; G2 XOR 3523 16955 19539; G2 XOR 3522 16956 19540; G2 XOR 3521 16957 19541;
  G2 XOR 3520 16958 19542; G2 XOR 3519 16959 19543; G2 XOR 3518 16960 19544; G2 XOR 3517 16961 19545;
  G2 XOR 3516 16962 19546; G2 XOR 3515 16963 19547; G2 XOR 3514 16964 19548; G2 XOR 3513 16965 19549;
  G2 XOR 3512 16966 19550; G2 XOR 16965 19675 6713; G2 AND 6714 6713 6712; G2 XOR 6712 19675 19676;
  G2 XOR 19803 19676 6711; G2 XOR 19739 19676 3511; G2 XOR 16966 19676 6710; G2 AND 6711 6710 6709;
  G2 XOR 6709 19676 19677; G2 XOR 19740 19677 3510; G2 XOR 16967 19677 6707; G2 XOR 19804 19677 6708;
  G2 AND 6708 6707 6706; G2 XOR 6706 19677 19678; G2 XOR 19741 19678 3509; G2 XOR 16968 19678 6704;
  G2 XOR 19805 19678 6705; G2 AND 6705 6704 6703; G2 XOR 6703 19678 19679; G2 XOR 19806 19679 6702;
  G2 XOR 16969 19679 6701; G2 AND 6702 6701 6700; G2 XOR 19742 19679 3508; G2 XOR 6700 19679 19680;
  G2 XOR 19807 19680 6699; G2 XOR 19743 19680 3507; G2 XOR 16970 19680 6698; G2 AND 6699 6698 6697;
  G2 XOR 3511 16967 19551; G2 XOR 3510 16968 19552; G2 XOR 3509 16969 19553; G2 XOR 3508 16970 19554;
  G2 XOR 3507 16971 19555; G2 XOR 6697 19680 19681; G2 XOR 19744 19681 3506; G2 XOR 16971 19681 6695;
  G2 XOR 19808 19681 6696; G2 AND 6696 6695 6694; G2 XOR 6694 19681 19682; G2 XOR 19809 19682 6693;
  G2 XOR 19745 19682 3505; G2 XOR 16972 19682 6692; G2 AND 6693 6692 6691; G2 XOR 6691 19682 19683;
  G2 XOR 19746 19683 3504; G2 XOR 19810 19683 6690; G2 XOR 16973 19683 6689; G2 AND 6690 6689 6688;
  G2 XOR 6688 19683 19684; G2 XOR 19811 19684 6687; G2 XOR 19747 19684 3503; G2 XOR 16974 19684 6686;
  G2 AND 6687 6686 6685; G2 XOR 6685 19684 19685; G2 XOR 19748 19685 3502; G2 XOR 19812 19685 6684;
  G2 XOR 16975 19685 6683; G2 AND 6684 6683 6682; G2 XOR 6682 19685 19686; G2 XOR 19813 19686 6681;
  G2 XOR 19749 19686 3501; G2 XOR 3506 16972 19556; G2 XOR 3505 16973 19557; G2 XOR 3504 16974 19558;
  G2 XOR 3503 16975 19559; G2 XOR 3502 16976 19560; G2 XOR 3501 16977 19561; G2 XOR 16976 19686 6680;
  G2 AND 6681 6680 6679; G2 XOR 6679 19686 19687; G2 XOR 19750 19687 3500; G2 XOR 19814 19687 6678;
  G2 XOR 3500 16978 19562; G2 XOR 16977 19687 6677; G2 AND 6678 6677 6676; G2 XOR 6676 19687 19688;
  G2 XOR 19751 19688 3499; G2 XOR 19815 19688 6675; G2 XOR 16978 19688 6674; G2 AND 6675 6674 6673;
  G2 XOR 6673 19688 19689; G2 XOR 19752 19689 3498; G2 XOR 19816 19689 6672; G2 XOR 16979 19689 6671;
  G2 AND 6672 6671 6670; G2 XOR 6670 19689 19690; G2 XOR 19817 19690 6669; G2 XOR 16980 19690 6668;
  G2 AND 6669 6668 6667; G2 XOR 19753 19690 3497; G2 XOR 3499 16979 19563; G2 XOR 3498 16980 19564;
  G2 XOR 3497 16981 19565; G2 XOR 6667 19690 19691; G2 XOR 16981 19691 6665; G2 XOR 19818 19691 6666;
  G2 XOR 19754 19691 3496; G2 XOR 3496 16982 19566; G2 AND 6666 6665 6664; G2 XOR 6664 19691 19692;
  G2 XOR 19819 19692 6663; G2 XOR 16982 19692 6662; G2 XOR 19755 19692 3495; G2 AND 6663 6662 6661;
  G2 XOR 6661 19692 19693; G2 XOR 16983 19693 6659; G2 XOR 19756 19693 3494; G2 XOR 19820 19693 6660;
  G2 AND 6660 6659 6658; G2 XOR 6658 19693 19694; G2 XOR 19821 19694 6657; G2 XOR 19757 19694 3493;
  G2 XOR 16984 19694 6656; G2 AND 6657 6656 6655; G2 XOR 6655 19694 19695; G2 XOR 19758 19695 3492;
  G2 XOR 16985 19695 6653; G2 XOR 3495 16983 19567; G2 XOR 3494 16984 19568; G2 XOR 3493 16985 19569;
  G2 XOR 3492 16986 19570; G2 XOR 19822 19695 6654; G2 AND 6654 6653 6652; G2 XOR 6652 19695 19696;
  G2 XOR 19759 19696 3491; G2 XOR 19823 19696 6651; G2 XOR 16986 19696 6650; G2 XOR 3491 16987 19571;
  G2 AND 6651 6650 6649; G2 XOR 6649 19696 19697; G2 XOR 19760 19697 3490; G2 XOR 16987 19697 6647;
  G2 XOR 19824 19697 6648; G2 AND 6648 6647 6646; G2 XOR 6646 19697 19698; G2 XOR 19825 19698 6645;
  G2 XOR 19761 19698 3489; G2 XOR 16988 19698 6644; G2 AND 6645 6644 6643; G2 XOR 6643 19698 19699;
  G2 XOR 19762 19699 3488; G2 XOR 16989 19699 6641; G2 XOR 19826 19699 6642; G2 AND 6642 6641 6640;
  G2 XOR 6640 19699 19700; G2 XOR 19763 19700 3487; G2 XOR 19827 19700 6639; G2 XOR 16990 19700 6638;
  G2 AND 6639 6638 6637; G2 XOR 6637 19700 19701; G2 XOR 16991 19701 6635; G2 XOR 19828 19701 6636;
  G2 AND 6636 6635 6634; G2 XOR 3490 16988 19572; G2 XOR 3489 16989 19573; G2 XOR 3488 16990 19574;
  G2 XOR 3487 16991 19575; G2 XOR 6634 19701 19702; G2 XOR 19765 19702 3485; G2 XOR 19829 19702 6633;
  G2 XOR 16992 19702 6632; G2 XOR 3485 16993 19577; G2 XOR 19764 19701 3486; G2 XOR 3486 16992 19576;
  G2 AND 6633 6632 6631; G2 XOR 6631 19702 19703; G2 XOR 16993 19703 6629; G2 XOR 19766 19703 3484;
  G2 XOR 19830 19703 6630; G2 XOR 3484 16994 19578; G2 AND 6630 6629 6628; G2 XOR 6628 19703 19704;
  G2 XOR 19831 19704 6627; G2 XOR 19767 19704 3483; G2 XOR 16994 19704 6626; G2 AND 6627 6626 6625;
  G2 XOR 6625 19704 19705; G2 XOR 16995 19705 6623; G2 XOR 19768 19705 3482; G2 XOR 19832 19705 6624;
  G2 AND 6624 6623 6622; G2 XOR 6622 19705 19706; G2 XOR 16996 19706 6620; G2 XOR 19769 19706 3481;
  G2 XOR 19833 19706 6621; G2 AND 6621 6620 6619; G2 XOR 6619 19706 19707; G2 XOR 19770 19707 3480;
  G2 XOR 16997 19707 6617; G2 XOR 19834 19707 6618; G2 AND 6618 6617 6616; G2 XOR 6616 19707 19708;
  G2 XOR 19835 19708 6615; G2 XOR 16998 19708 6614; G2 AND 6615 6614 6613; G2 XOR 19771 19708 3479;
  G2 XOR 3483 16995 19579; G2 XOR 3482 16996 19580; G2 XOR 3481 16997 19581; G2 XOR 3480 16998 19582;
  G2 XOR 3479 16999 19583; G2 XOR 6613 19708 19709; G2 XOR 16999 19709 6611; G2 XOR 19772 19709 3478;
  G2 XOR 3478 17000 19584; G2 XOR 19836 19709 6612; G2 AND 6612 6611 6610; G2 XOR 6610 19709 19710;
  G2 XOR 19837 19710 6609; G2 XOR 19773 19710 3477; G2 XOR 17000 19710 6608; G2 AND 6609 6608 6607;
  G2 XOR 6607 19710 19711; G2 XOR 19774 19711 3476; G2 XOR 19838 19711 6606; G2 XOR 3477 17001 19585;
  G2 XOR 3476 17002 19586; G2 XOR 17001 19711 6605; G2 AND 6606 6605 6604; G2 XOR 6604 19711 19712;
  G2 XOR 19839 19712 6603; G2 XOR 19775 19712 3475; G2 XOR 17002 19712 6602; G2 AND 6603 6602 6601;
  G2 XOR 6601 19712 19713; G2 XOR 19840 19713 6600; G2 XOR 19776 19713 3474; G2 XOR 17003 19713 6599;
  G2 AND 6600 6599 6598; G2 XOR 6598 19713 19714; G2 XOR 19841 19714 6597; G2 XOR 17004 19714 6596;
  G2 AND 6597 6596 6595; G2 XOR 6595 19714 19715; G2 XOR 19778 19715 3472; G2 XOR 19842 19715 6594;
  G2 XOR 17005 19715 6593; G2 AND 6594 6593 6592; G2 XOR 6592 19715 19716; G2 XOR 19779 19716 3471;
  G2 XOR 17006 19716 6590; G2 XOR 3475 17003 19587; G2 XOR 3474 17004 19588; G2 XOR 3472 17006 19590;
  G2 XOR 3471 17007 19591; G2 XOR 19777 19714 3473; G2 XOR 3473 17005 19589; G2 XOR 3408 16641 19844;
  G2 XOR 3409 16641 19843; G2 XOR 19843 19716 6591; G2 AND 6591 6590 6589; G2 XOR 6589 19716 19717;
  G2 XOR 19844 19717 6588; G2 XOR 19780 19717 3470; G2 XOR 3470 17008 19592; G2 XOR 17007 19717 6587;
  G2 AND 6588 6587 6586; G2 XOR 6586 19717 19718; G2 XOR 19781 19718 3469; G2 XOR 19845 19718 6585;
  G2 XOR 3469 17009 19593; G2 XOR 17008 19718 6584; G2 AND 6585 6584 6583; G2 XOR 6583 19718 19719;
  G2 XOR 19782 19719 182; G1 INV 182 16640; G2 XOR 3471 16640 19655; G2 XOR 16829 16640 19594;
  G2 XOR 3526 16640 19600; G2 XOR 3520 16640 19606; G2 XOR 3514 16640 19612; G2 XOR 3508 16640 19618;
  G2 XOR 3502 16640 19624; G2 XOR 3496 16640 19630; G2 XOR 3490 16640 19636; G2 XOR 3484 16640 19642;
  G2 XOR 3478 16640 19648; G2 AND 19594 16946 19468; G2 XOR 19531 19468 3593; G2 XOR 16947 19468 6581;
  G2 XOR 3593 16948 19343; G2 XOR 3528 16640 19598; G2 XOR 3529 16640 19597; G2 XOR 3531 16640 19595;
  G2 XOR 19595 19468 6582; G2 AND 6582 6581 6580; G2 XOR 6580 19468 19469; G2 XOR 19532 19469 3592;
  G2 XOR 16948 19469 6578; G2 XOR 3592 16949 19344; G2 XOR 3530 16640 19596; G2 XOR 19596 19469 6579;
  G2 AND 6579 6578 6577; G2 XOR 6577 19469 19470; G2 XOR 16949 19470 6575; G2 XOR 19597 19470 6576;
  G2 AND 6576 6575 6574; G2 XOR 6574 19470 19471; G2 XOR 19534 19471 3590; G2 XOR 16950 19471 6572;
  G2 XOR 19598 19471 6573; G2 AND 6573 6572 6571; G2 XOR 19533 19470 3591; G2 XOR 6571 19471 19472;
  G2 XOR 19535 19472 3589; G2 XOR 16951 19472 6569; G2 XOR 3591 16950 19345; G2 XOR 3590 16951 19346;
  G2 XOR 3589 16952 19347; G2 XOR 3527 16640 19599; G2 XOR 19599 19472 6570; G2 AND 6570 6569 6568;
  G2 XOR 6568 19472 19473; G2 XOR 19536 19473 3588; G2 XOR 16952 19473 6566; G2 XOR 19600 19473 6567;
  G2 AND 6567 6566 6565; G2 XOR 6565 19473 19474; G2 XOR 19537 19474 3587; G2 XOR 16953 19474 6563;
  G2 XOR 3588 16953 19348; G2 XOR 3587 16954 19349; G2 XOR 3522 16640 19604; G2 XOR 3523 16640 19603;
  G2 XOR 3525 16640 19601; G2 XOR 19601 19474 6564; G2 AND 6564 6563 6562; G2 XOR 6562 19474 19475;
  G2 XOR 19538 19475 3586; G2 XOR 16954 19475 6560; G2 XOR 3586 16955 19350; G2 XOR 3524 16640 19602;
  G2 XOR 19602 19475 6561; G2 AND 6561 6560 6559; G2 XOR 6559 19475 19476; G2 XOR 16955 19476 6557;
  G2 XOR 19603 19476 6558; G2 AND 6558 6557 6556; G2 XOR 6556 19476 19477; G2 XOR 19540 19477 3584;
  G2 XOR 16956 19477 6554; G2 XOR 19604 19477 6555; G2 AND 6555 6554 6553; G2 XOR 19539 19476 3585;
  G2 XOR 6553 19477 19478; G2 XOR 19541 19478 3583; G2 XOR 16957 19478 6551; G2 XOR 3585 16956 19351;
  G2 XOR 3584 16957 19352; G2 XOR 3583 16958 19353; G2 XOR 3521 16640 19605; G2 XOR 19605 19478 6552;
  G2 AND 6552 6551 6550; G2 XOR 6550 19478 19479; G2 XOR 19542 19479 3582; G2 XOR 16958 19479 6548;
  G2 XOR 19606 19479 6549; G2 AND 6549 6548 6547; G2 XOR 6547 19479 19480; G2 XOR 19543 19480 3581;
  G2 XOR 16959 19480 6545; G2 XOR 3582 16959 19354; G2 XOR 3581 16960 19355; G2 XOR 3516 16640 19610;
  G2 XOR 3517 16640 19609; G2 XOR 3519 16640 19607; G2 XOR 19607 19480 6546; G2 AND 6546 6545 6544;
  G2 XOR 6544 19480 19481; G2 XOR 19544 19481 3580; G2 XOR 16960 19481 6542; G2 XOR 3580 16961 19356;
  G2 XOR 3518 16640 19608; G2 XOR 19608 19481 6543; G2 AND 6543 6542 6541; G2 XOR 6541 19481 19482;
  G2 XOR 16961 19482 6539; G2 XOR 19609 19482 6540; G2 AND 6540 6539 6538; G2 XOR 6538 19482 19483;
  G2 XOR 19546 19483 3578; G2 XOR 16962 19483 6536; G2 XOR 19610 19483 6537; G2 AND 6537 6536 6535;
  G2 XOR 19545 19482 3579; G2 XOR 6535 19483 19484; G2 XOR 19547 19484 3577; G2 XOR 16963 19484 6533;
  G2 XOR 3579 16962 19357; G2 XOR 3578 16963 19358; G2 XOR 3577 16964 19359; G2 XOR 3515 16640 19611;
  G2 XOR 19611 19484 6534; G2 AND 6534 6533 6532; G2 XOR 6532 19484 19485; G2 XOR 19548 19485 3576;
  G2 XOR 16964 19485 6530; G2 XOR 19612 19485 6531; G2 AND 6531 6530 6529; G2 XOR 6529 19485 19486;
  G2 XOR 19549 19486 3575; G2 XOR 16965 19486 6527; G2 XOR 3576 16965 19360; G2 XOR 3575 16966 19361;
  G2 XOR 3510 16640 19616; G2 XOR 3511 16640 19615; G2 XOR 3513 16640 19613; G2 XOR 19613 19486 6528;
  G2 AND 6528 6527 6526; G2 XOR 6526 19486 19487; G2 XOR 19550 19487 3574; G2 XOR 16966 19487 6524;
  G2 XOR 3574 16967 19362; G2 XOR 3512 16640 19614; G2 XOR 19614 19487 6525; G2 AND 6525 6524 6523;
  G2 XOR 6523 19487 19488; G2 XOR 16967 19488 6521; G2 XOR 19615 19488 6522; G2 AND 6522 6521 6520;
  G2 XOR 6520 19488 19489; G2 XOR 19552 19489 3572; G2 XOR 16968 19489 6518; G2 XOR 19616 19489 6519;
  G2 AND 6519 6518 6517; G2 XOR 19551 19488 3573; G2 XOR 6517 19489 19490; G2 XOR 19553 19490 3571;
  G2 XOR 16969 19490 6515; G2 XOR 3573 16968 19363; G2 XOR 3572 16969 19364; G2 XOR 3571 16970 19365;
  G2 XOR 3509 16640 19617; G2 XOR 19617 19490 6516; G2 AND 6516 6515 6514; G2 XOR 6514 19490 19491;
  G2 XOR 19554 19491 3570; G2 XOR 16970 19491 6512; G2 XOR 19618 19491 6513; G2 AND 6513 6512 6511;
  G2 XOR 6511 19491 19492; G2 XOR 19555 19492 3569; G2 XOR 16971 19492 6509; G2 XOR 3570 16971 19366;
  G2 XOR 3569 16972 19367; G2 XOR 3504 16640 19622; G2 XOR 3505 16640 19621; G2 XOR 3507 16640 19619;
  G2 XOR 19619 19492 6510; G2 AND 6510 6509 6508; G2 XOR 6508 19492 19493; G2 XOR 19556 19493 3568;
  G2 XOR 16972 19493 6506; G2 XOR 3568 16973 19368; G2 XOR 3506 16640 19620; G2 XOR 19620 19493 6507;
  G2 AND 6507 6506 6505; G2 XOR 6505 19493 19494; G2 XOR 19557 19494 3567; G2 XOR 3567 16974 19369;
  G2 XOR 16973 19494 6503; G2 XOR 19621 19494 6504; G2 AND 6504 6503 6502; G2 XOR 6502 19494 19495;
  G2 XOR 19622 19495 6501; G2 XOR 19558 19495 3566; G2 XOR 3566 16975 19370; G2 XOR 16974 19495 6500;
  G2 AND 6501 6500 6499; G2 XOR 6499 19495 19496; G2 XOR 16975 19496 6497; G2 XOR 19559 19496 3565;
  G2 XOR 3565 16976 19371; G2 XOR 3503 16640 19623; G2 XOR 19623 19496 6498; G2 AND 6498 6497 6496;
  G2 XOR 6496 19496 19497; G2 XOR 19624 19497 6495; G2 XOR 19560 19497 3564; G2 XOR 16976 19497 6494;
  G2 AND 6495 6494 6493; G2 XOR 6493 19497 19498; G2 XOR 16977 19498 6491; G2 XOR 3564 16977 19372;
  G2 XOR 19561 19498 3563; G2 XOR 3563 16978 19373; G2 XOR 3498 16640 19628; G2 XOR 3499 16640 19627;
  G2 XOR 3501 16640 19625; G2 XOR 19625 19498 6492; G2 AND 6492 6491 6490; G2 XOR 6490 19498 19499;
  G2 XOR 19562 19499 3562; G2 XOR 16978 19499 6488; G2 XOR 3562 16979 19374; G2 XOR 3500 16640 19626;
  G2 XOR 19626 19499 6489; G2 AND 6489 6488 6487; G2 XOR 6487 19499 19500; G2 XOR 16979 19500 6485;
  G2 XOR 19563 19500 3561; G2 XOR 19627 19500 6486; G2 AND 6486 6485 6484; G2 XOR 6484 19500 19501;
  G2 XOR 3561 16980 19375; G2 XOR 19564 19501 3560; G2 XOR 3560 16981 19376; G2 XOR 16980 19501 6482;
  G2 XOR 19628 19501 6483; G2 AND 6483 6482 6481; G2 XOR 6481 19501 19502; G2 XOR 16981 19502 6479;
  G2 XOR 19565 19502 3559; G2 XOR 3559 16982 19377; G2 XOR 3497 16640 19629; G2 XOR 19629 19502 6480;
  G2 AND 6480 6479 6478; G2 XOR 6478 19502 19503; G2 XOR 19630 19503 6477; G2 XOR 16982 19503 6476;
  G2 AND 6477 6476 6475; G2 XOR 6475 19503 19504; G2 XOR 16983 19504 6473; G2 XOR 19567 19504 3557;
  G2 XOR 3557 16984 19379; G2 XOR 19566 19503 3558; G2 XOR 3558 16983 19378; G2 XOR 3492 16640 19634;
  G2 XOR 3493 16640 19633; G2 XOR 3495 16640 19631; G2 XOR 19631 19504 6474; G2 AND 6474 6473 6472;
  G2 XOR 6472 19504 19505; G2 XOR 19568 19505 3556; G2 XOR 16984 19505 6470; G2 XOR 3556 16985 19380;
  G2 XOR 3494 16640 19632; G2 XOR 19632 19505 6471; G2 AND 6471 6470 6469; G2 XOR 6469 19505 19506;
  G2 XOR 19569 19506 3555; G2 XOR 19633 19506 6468; G2 XOR 3555 16986 19381; G2 XOR 16985 19506 6467;
  G2 AND 6468 6467 6466; G2 XOR 6466 19506 19507; G2 XOR 16986 19507 6464; G2 XOR 19634 19507 6465;
  G2 AND 6465 6464 6463; G2 XOR 6463 19507 19508; G2 XOR 19571 19508 3553; G2 XOR 16987 19508 6461;
  G2 XOR 3553 16988 19383; G2 XOR 19570 19507 3554; G2 XOR 3554 16987 19382; G2 XOR 3491 16640 19635;
  G2 XOR 19635 19508 6462; G2 AND 6462 6461 6460; G2 XOR 6460 19508 19509; G2 XOR 19572 19509 3552;
  G2 XOR 16988 19509 6458; G2 XOR 19636 19509 6459; G2 AND 6459 6458 6457; G2 XOR 6457 19509 19510;
  G2 XOR 16989 19510 6455; G2 XOR 19573 19510 3551; G2 XOR 3552 16989 19384; G2 XOR 3551 16990 19385;
  G2 XOR 3486 16640 19640; G2 XOR 3487 16640 19639; G2 XOR 3489 16640 19637; G2 XOR 19637 19510 6456;
  G2 AND 6456 6455 6454; G2 XOR 6454 19510 19511; G2 XOR 19574 19511 3550; G2 XOR 3550 16991 19386;
  G2 XOR 16990 19511 6452; G2 XOR 3488 16640 19638; G2 XOR 19638 19511 6453; G2 AND 6453 6452 6451;
  G2 XOR 6451 19511 19512; G2 XOR 16991 19512 6449; G2 XOR 19575 19512 3549; G2 XOR 3549 16992 19387;
  G2 XOR 19639 19512 6450; G2 AND 6450 6449 6448; G2 XOR 6448 19512 19513; G2 XOR 19640 19513 6447;
  G2 XOR 19576 19513 3548; G2 XOR 3548 16993 19388; G2 XOR 16992 19513 6446; G2 AND 6447 6446 6445;
  G2 XOR 6445 19513 19514; G2 XOR 19577 19514 3547; G2 XOR 3547 16994 19389; G2 XOR 16993 19514 6443;
  G2 XOR 3485 16640 19641; G2 XOR 19641 19514 6444; G2 AND 6444 6443 6442; G2 XOR 6442 19514 19515;
  G2 XOR 19642 19515 6441; G2 XOR 19578 19515 3546; G2 XOR 16994 19515 6440; G2 XOR 3546 16995 19390;
  G2 AND 6441 6440 6439; G2 XOR 6439 19515 19516; G2 XOR 16995 19516 6437; G2 XOR 19579 19516 3545;
  G2 XOR 3545 16996 19391; G2 XOR 3480 16640 19646; G2 XOR 3481 16640 19645; G2 XOR 3483 16640 19643;
  G2 XOR 19643 19516 6438; G2 AND 6438 6437 6436; G2 XOR 6436 19516 19517; G2 XOR 16996 19517 6434;
  G2 XOR 19580 19517 3544; G2 XOR 3544 16997 19392; G2 XOR 3482 16640 19644; G2 XOR 19644 19517 6435;
  G2 AND 6435 6434 6433; G2 XOR 6433 19517 19518; G2 XOR 19581 19518 3543; G2 XOR 3543 16998 19393;
  G2 XOR 19645 19518 6432; G2 XOR 16997 19518 6431; G2 AND 6432 6431 6430; G2 XOR 6430 19518 19519;
  G2 XOR 19646 19519 6429; G2 XOR 19582 19519 3542; G2 XOR 16998 19519 6428; G2 AND 6429 6428 6427;
  G2 XOR 6427 19519 19520; G2 XOR 19583 19520 3541; G2 XOR 3542 16999 19394; G2 XOR 3541 17000 19395;
  G2 XOR 16999 19520 6425; G2 XOR 3479 16640 19647; G2 XOR 19647 19520 6426; G2 XOR 3474 16640 19652;
  G2 XOR 3475 16640 19651; G2 XOR 3477 16640 19649; G2 XOR 3476 16640 19650; G2 XOR 3473 16640 19653;
  G2 AND 6426 6425 6424; G2 XOR 6424 19520 19521; G2 XOR 17000 19521 6422; G2 XOR 19584 19521 3540;
  G2 XOR 3540 17001 19396; G2 XOR 3470 16640 19656; G2 XOR 19648 19521 6423; G2 AND 6423 6422 6421;
  G2 XOR 6421 19521 19522; G2 XOR 19649 19522 6420; G2 XOR 19585 19522 3539; G2 XOR 3539 17002 19397;
  G2 AND 16640 4535 17524; G2 XOR 17001 19522 6419; G2 AND 6420 6419 6418; G2 XOR 6418 19522 19523;
  G2 XOR 17002 19523 6416; G2 XOR 19650 19523 6417; G2 AND 6417 6416 6415; G2 XOR 6415 19523 19524;
  G2 XOR 19587 19524 3537; G2 XOR 19651 19524 6414; G2 XOR 3537 17004 19399; G2 XOR 17003 19524 6413;
  G2 AND 6414 6413 6412; G2 XOR 6412 19524 19525; G2 XOR 19652 19525 6411; G2 XOR 17004 19525 6410;
  G2 AND 6411 6410 6409; G2 XOR 19588 19525 3536; G2 XOR 3536 17005 19400; G2 XOR 19586 19523 3538;
  G2 XOR 3538 17003 19398; G2 XOR 6409 19525 19526; G2 XOR 19589 19526 3535; G2 XOR 17005 19526 6407;
  G2 XOR 3535 17006 19401; G2 XOR 19653 19526 6408; G2 AND 6408 6407 6406; G2 XOR 6406 19526 19527;
  G2 XOR 17006 19527 6404; G2 XOR 19590 19527 3534; G2 XOR 3534 17007 19402; G2 XOR 3472 16640 19654;
  G2 XOR 19654 19527 6405; G2 AND 6405 6404 6403; G2 XOR 6403 19527 19528; G2 XOR 19655 19528 6402;
  G2 XOR 17007 19528 6401; G2 AND 6402 6401 6400; G2 XOR 6400 19528 19529; G2 XOR 19592 19529 3532;
  G2 XOR 3532 17009 19404; G2 XOR 17008 19529 6398; G2 XOR 19656 19529 6399; G2 AND 6399 6398 6397;
  G2 XOR 6397 19529 19530; G2 XOR 19593 19530 183; G2 XOR 19591 19528 3533; G2 XOR 3533 17008 19403;
  G1 INV 183 16639; G2 XOR 3533 16639 19467; G2 XOR 16828 16639 19405; G2 XOR 3589 16639 19411;
  G2 XOR 3583 16639 19417; G2 XOR 3577 16639 19423; G2 XOR 3571 16639 19429; G2 XOR 3565 16639 19435;
  G2 XOR 3559 16639 19441; G2 XOR 3553 16639 19447; G2 XOR 3547 16639 19453; G2 XOR 3541 16639 19459;
  G2 XOR 3591 16639 19409; G2 XOR 3592 16639 19408; G2 XOR 3594 16639 19406; G2 XOR 3593 16639 19407;
  G2 XOR 3590 16639 19410; G2 XOR 3585 16639 19415; G2 XOR 3586 16639 19414; G2 XOR 3588 16639 19412;
  G2 XOR 3587 16639 19413; G2 XOR 3584 16639 19416; G2 XOR 3579 16639 19421; G2 XOR 3580 16639 19420;
  G2 XOR 3582 16639 19418; G2 XOR 3581 16639 19419; G2 XOR 3578 16639 19422; G2 XOR 3573 16639 19427;
  G2 XOR 3574 16639 19426; G2 XOR 3576 16639 19424; G2 XOR 3575 16639 19425; G2 XOR 3572 16639 19428;
  G2 XOR 3567 16639 19433; G2 XOR 3568 16639 19432; G2 XOR 3570 16639 19430; G2 XOR 3569 16639 19431;
  G2 XOR 3566 16639 19434; G2 XOR 3561 16639 19439; G2 XOR 3562 16639 19438; G2 XOR 3564 16639 19436;
  G2 XOR 3563 16639 19437; G2 XOR 3560 16639 19440; G2 XOR 3555 16639 19445; G2 XOR 3556 16639 19444;
  G2 XOR 3558 16639 19442; G2 XOR 3557 16639 19443; G2 XOR 3554 16639 19446; G2 XOR 3549 16639 19451;
  G2 XOR 3550 16639 19450; G2 XOR 3552 16639 19448; G2 XOR 3551 16639 19449; G2 XOR 3548 16639 19452;
  G2 XOR 3543 16639 19457; G2 XOR 3544 16639 19456; G2 XOR 3546 16639 19454; G2 XOR 3545 16639 19455;
  G2 XOR 3542 16639 19458; G2 XOR 3537 16639 19463; G2 XOR 3538 16639 19462; G2 XOR 3540 16639 19460;
  G2 XOR 3539 16639 19461; G2 XOR 3536 16639 19464; G2 XOR 3535 16639 19465; G2 AND 16639 4535 17523;
  G2 AND 19405 16946 19279; G2 XOR 19406 19279 6396; G2 XOR 19342 19279 3656; G2 XOR 16947 19279 6395;
  G2 AND 6396 6395 6394; G2 XOR 6394 19279 19280; G2 XOR 16948 19280 6392; G2 XOR 19407 19280 6393;
  G2 AND 6393 6392 6391; G2 XOR 6391 19280 19281; G2 XOR 19344 19281 3654; G2 XOR 16949 19281 6389;
  G2 XOR 19408 19281 6390; G2 AND 6390 6389 6388; G2 XOR 6388 19281 19282; G2 XOR 19345 19282 3653;
  G2 XOR 19409 19282 6387; G2 XOR 16950 19282 6386; G2 XOR 19343 19280 3655; G2 AND 6387 6386 6385;
  G2 XOR 6385 19282 19283; G2 XOR 19346 19283 3652; G2 XOR 16951 19283 6383; G2 XOR 19410 19283 6384;
  G2 AND 6384 6383 6382; G2 XOR 6382 19283 19284; G2 XOR 19347 19284 3651; G2 XOR 19411 19284 6381;
  G2 XOR 16952 19284 6380; G2 AND 6381 6380 6379; G2 XOR 6379 19284 19285; G2 XOR 19412 19285 6378;
  G2 XOR 19348 19285 3650; G2 XOR 16953 19285 6377; G2 AND 6378 6377 6376; G2 XOR 6376 19285 19286;
  G2 XOR 16954 19286 6374; G2 XOR 19413 19286 6375; G2 AND 6375 6374 6373; G2 XOR 6373 19286 19287;
  G2 XOR 19350 19287 3648; G2 XOR 16955 19287 6371; G2 XOR 19414 19287 6372; G2 AND 6372 6371 6370;
  G2 XOR 19349 19286 3649; G2 XOR 6370 19287 19288; G2 XOR 19351 19288 3647; G2 XOR 19415 19288 6369;
  G2 XOR 16956 19288 6368; G2 AND 6369 6368 6367; G2 XOR 6367 19288 19289; G2 XOR 19352 19289 3646;
  G2 XOR 16957 19289 6365; G2 XOR 19416 19289 6366; G2 AND 6366 6365 6364; G2 XOR 6364 19289 19290;
  G2 XOR 19353 19290 3645; G2 XOR 19417 19290 6363; G2 XOR 3656 16948 19154; G2 XOR 3655 16949 19155;
  G2 XOR 3654 16950 19156; G2 XOR 3653 16951 19157; G2 XOR 3652 16952 19158; G2 XOR 3651 16953 19159;
  G2 XOR 3650 16954 19160; G2 XOR 3649 16955 19161; G2 XOR 3648 16956 19162; G2 XOR 3647 16957 19163;
  G2 XOR 3646 16958 19164; G2 XOR 3645 16959 19165; G2 XOR 16958 19290 6362; G2 AND 6363 6362 6361;
  G2 XOR 6361 19290 19291; G2 XOR 19418 19291 6360; G2 XOR 19354 19291 3644; G2 XOR 3644 16960 19166;
  G2 XOR 16959 19291 6359; G2 AND 6360 6359 6358; G2 XOR 6358 19291 19292; G2 XOR 16960 19292 6356;
  G2 XOR 19419 19292 6357; G2 AND 6357 6356 6355; G2 XOR 6355 19292 19293; G2 XOR 19420 19293 6354;
  G2 XOR 16961 19293 6353; G2 AND 6354 6353 6352; G2 XOR 6352 19293 19294; G2 XOR 19421 19294 6351;
  G2 XOR 16962 19294 6350; G2 AND 6351 6350 6349; G2 XOR 6349 19294 19295; G2 XOR 19422 19295 6348;
  G2 XOR 19358 19295 3640; G2 XOR 16963 19295 6347; G2 AND 6348 6347 6346; G2 XOR 6346 19295 19296;
  G2 XOR 19359 19296 3639; G2 XOR 16964 19296 6344; G2 XOR 19423 19296 6345; G2 AND 6345 6344 6343;
  G2 XOR 6343 19296 19297; G2 XOR 19424 19297 6342; G2 XOR 19360 19297 3638; G2 XOR 16965 19297 6341;
  G2 AND 6342 6341 6340; G2 XOR 6340 19297 19298; G2 XOR 16966 19298 6338; G2 XOR 19425 19298 6339;
  G2 AND 6339 6338 6337; G2 XOR 19361 19298 3637; G2 XOR 6337 19298 19299; G2 XOR 19362 19299 3636;
  G2 XOR 19426 19299 6336; G2 XOR 16967 19299 6335; G2 AND 6336 6335 6334; G2 XOR 6334 19299 19300;
  G2 XOR 19427 19300 6333; G2 XOR 19363 19300 3635; G2 XOR 16968 19300 6332; G2 AND 6333 6332 6331;
  G2 XOR 6331 19300 19301; G2 XOR 19364 19301 3634; G2 XOR 19428 19301 6330; G2 XOR 16969 19301 6329;
  G2 AND 6330 6329 6328; G2 XOR 6328 19301 19302; G2 XOR 16970 19302 6326; G2 XOR 19429 19302 6327;
  G2 AND 6327 6326 6325; G2 XOR 6325 19302 19303; G2 XOR 19430 19303 6324; G2 XOR 19366 19303 3632;
  G2 XOR 19365 19302 3633; G2 XOR 16971 19303 6323; G2 AND 6324 6323 6322; G2 XOR 6322 19303 19304;
  G2 XOR 16972 19304 6320; G2 XOR 19431 19304 6321; G2 AND 6321 6320 6319; G2 XOR 6319 19304 19305;
  G2 XOR 19368 19305 3630; G2 XOR 16973 19305 6317; G2 XOR 19432 19305 6318; G2 AND 6318 6317 6316;
  G2 XOR 6316 19305 19306; G2 XOR 19369 19306 3629; G2 XOR 16974 19306 6314; G2 XOR 19433 19306 6315;
  G2 AND 6315 6314 6313; G2 XOR 6313 19306 19307; G2 XOR 16975 19307 6311; G2 XOR 19370 19307 3628;
  G2 XOR 19356 19293 3642; G2 XOR 3642 16962 19168; G2 XOR 3640 16964 19170; G2 XOR 3639 16965 19171;
  G2 XOR 3638 16966 19172; G2 XOR 3637 16967 19173; G2 XOR 3636 16968 19174; G2 XOR 3635 16969 19175;
  G2 XOR 3634 16970 19176; G2 XOR 3633 16971 19177; G2 XOR 3632 16972 19178; G2 XOR 3630 16974 19180;
  G2 XOR 3629 16975 19181; G2 XOR 3628 16976 19182; G2 XOR 19355 19292 3643; G2 XOR 3643 16961 19167;
  G2 XOR 19357 19294 3641; G2 XOR 3641 16963 19169; G2 XOR 19434 19307 6312; G2 AND 6312 6311 6310;
  G2 XOR 6310 19307 19308; G2 XOR 19435 19308 6309; G2 XOR 16976 19308 6308; G2 AND 6309 6308 6307;
  G2 XOR 6307 19308 19309; G2 XOR 16977 19309 6305; G2 XOR 19436 19309 6306; G2 XOR 19372 19309 3626;
  G2 AND 6306 6305 6304; G2 XOR 6304 19309 19310; G2 XOR 19373 19310 3625; G2 XOR 16978 19310 6302;
  G2 XOR 19371 19308 3627; G2 XOR 19437 19310 6303; G2 AND 6303 6302 6301; G2 XOR 6301 19310 19311;
  G2 XOR 19374 19311 3624; G2 XOR 16979 19311 6299; G2 XOR 19438 19311 6300; G2 AND 6300 6299 6298;
  G2 XOR 6298 19311 19312; G2 XOR 19375 19312 3623; G2 XOR 19439 19312 6297; G2 XOR 16980 19312 6296;
  G2 AND 6297 6296 6295; G2 XOR 6295 19312 19313; G2 XOR 19440 19313 6294; G2 XOR 19376 19313 3622;
  G2 XOR 16981 19313 6293; G2 AND 6294 6293 6292; G2 XOR 6292 19313 19314; G2 XOR 16982 19314 6290;
  G2 XOR 19377 19314 3621; G2 XOR 19441 19314 6291; G2 AND 6291 6290 6289; G2 XOR 6289 19314 19315;
  G2 XOR 3627 16977 19183; G2 XOR 3626 16978 19184; G2 XOR 3625 16979 19185; G2 XOR 3624 16980 19186;
  G2 XOR 3623 16981 19187; G2 XOR 3622 16982 19188; G2 XOR 3621 16983 19189; G2 XOR 19442 19315 6288;
  G2 XOR 19378 19315 3620; G2 XOR 3620 16984 19190; G2 XOR 16983 19315 6287; G2 AND 6288 6287 6286;
  G2 XOR 6286 19315 19316; G2 XOR 16984 19316 6284; G2 XOR 19379 19316 3619; G2 XOR 19443 19316 6285;
  G2 AND 6285 6284 6283; G2 XOR 6283 19316 19317; G2 XOR 16985 19317 6281; G2 XOR 19380 19317 3618;
  G2 XOR 19444 19317 6282; G2 AND 6282 6281 6280; G2 XOR 6280 19317 19318; G2 XOR 19445 19318 6279;
  G2 XOR 19381 19318 3617; G2 XOR 16986 19318 6278; G2 XOR 3619 16985 19191; G2 XOR 3618 16986 19192;
  G2 XOR 3617 16987 19193; G2 AND 6279 6278 6277; G2 XOR 6277 19318 19319; G2 XOR 19382 19319 3616;
  G2 XOR 19446 19319 6276; G2 XOR 16987 19319 6275; G2 AND 6276 6275 6274; G2 XOR 6274 19319 19320;
  G2 XOR 16988 19320 6272; G2 XOR 19383 19320 3615; G2 XOR 19447 19320 6273; G2 AND 6273 6272 6271;
  G2 XOR 6271 19320 19321; G2 XOR 19384 19321 3614; G2 XOR 19448 19321 6270; G2 XOR 16989 19321 6269;
  G2 AND 6270 6269 6268; G2 XOR 6268 19321 19322; G2 XOR 16990 19322 6266; G2 XOR 19385 19322 3613;
  G2 XOR 19449 19322 6267; G2 AND 6267 6266 6265; G2 XOR 6265 19322 19323; G2 XOR 16991 19323 6263;
  G2 XOR 19386 19323 3612; G2 XOR 19450 19323 6264; G2 AND 6264 6263 6262; G2 XOR 6262 19323 19324;
  G2 XOR 19387 19324 3611; G2 XOR 19451 19324 6261; G2 XOR 16992 19324 6260; G2 XOR 3616 16988 19194;
  G2 XOR 3615 16989 19195; G2 XOR 3614 16990 19196; G2 XOR 3613 16991 19197; G2 XOR 3612 16992 19198;
  G2 XOR 3611 16993 19199; G2 AND 6261 6260 6259; G2 XOR 6259 19324 19325; G2 XOR 19452 19325 6258;
  G2 XOR 19388 19325 3610; G2 XOR 16993 19325 6257; G2 AND 6258 6257 6256; G2 XOR 6256 19325 19326;
  G2 XOR 16994 19326 6254; G2 XOR 19389 19326 3609; G2 XOR 3610 16994 19200; G2 XOR 3609 16995 19201;
  G2 XOR 19453 19326 6255; G2 AND 6255 6254 6253; G2 XOR 6253 19326 19327; G2 XOR 16995 19327 6251;
  G2 XOR 19454 19327 6252; G2 AND 6252 6251 6250; G2 XOR 6250 19327 19328; G2 XOR 19455 19328 6249;
  G2 XOR 16996 19328 6248; G2 AND 6249 6248 6247; G2 XOR 6247 19328 19329; G2 XOR 19392 19329 3606;
  G2 XOR 16997 19329 6245; G2 XOR 19456 19329 6246; G2 AND 6246 6245 6244; G2 XOR 19391 19328 3607;
  G2 XOR 6244 19329 19330; G2 XOR 19393 19330 3605; G2 XOR 19457 19330 6243; G2 XOR 16998 19330 6242;
  G2 AND 6243 6242 6241; G2 XOR 6241 19330 19331; G2 XOR 19458 19331 6240; G2 XOR 19394 19331 3604;
  G2 XOR 16999 19331 6239; G2 AND 6240 6239 6238; G2 XOR 6238 19331 19332; G2 XOR 19395 19332 3603;
  G2 XOR 19459 19332 6237; G2 XOR 17000 19332 6236; G2 AND 6237 6236 6235; G2 XOR 3607 16997 19203;
  G2 XOR 3606 16998 19204; G2 XOR 3605 16999 19205; G2 XOR 3604 17000 19206; G2 XOR 3603 17001 19207;
  G2 XOR 6235 19332 19333; G2 XOR 19396 19333 3602; G2 XOR 19460 19333 6234; G2 XOR 17001 19333 6233;
  G2 AND 6234 6233 6232; G2 XOR 3602 17002 19208; G2 XOR 6232 19333 19334; G2 XOR 19397 19334 3601;
  G2 XOR 17002 19334 6230; G2 XOR 19461 19334 6231; G2 AND 6231 6230 6229; G2 XOR 3601 17003 19209;
  G2 XOR 6229 19334 19335; G2 XOR 19462 19335 6228; G2 XOR 19398 19335 3600; G2 XOR 17003 19335 6227;
  G2 AND 6228 6227 6226; G2 XOR 6226 19335 19336; G2 XOR 19463 19336 6225; G2 XOR 17004 19336 6224;
  G2 AND 6225 6224 6223; G2 XOR 19399 19336 3599; G2 XOR 6223 19336 19337; G2 XOR 19400 19337 3598;
  G2 XOR 17005 19337 6221; G2 XOR 3600 17004 19210; G2 XOR 3599 17005 19211; G2 XOR 3598 17006 19212;
  G2 XOR 19464 19337 6222; G2 AND 6222 6221 6220; G2 XOR 6220 19337 19338; G2 XOR 19401 19338 3597;
  G2 XOR 19465 19338 6219; G2 XOR 3597 17007 19213; G2 XOR 17006 19338 6218; G2 AND 6219 6218 6217;
  G2 XOR 6217 19338 19339; G2 XOR 19402 19339 3596; G2 XOR 17007 19339 6215; G2 XOR 3596 17008 19214;
  G2 XOR 19390 19327 3608; G2 XOR 3608 16996 19202; G2 XOR 19367 19304 3631; G2 XOR 3631 16973 19179;
  G2 XOR 3534 16639 19466; G2 XOR 19466 19339 6216; G2 AND 6216 6215 6214; G2 XOR 6214 19339 19340;
  G2 XOR 19403 19340 3595; G2 XOR 17008 19340 6212; G2 XOR 19467 19340 6213; G2 AND 6213 6212 6211;
  G2 XOR 3595 17009 19215; G2 XOR 6211 19340 19341; G2 XOR 19404 19341 184; G1 INV 184 16638;
  G2 XOR 3657 16638 19217; G2 XOR 3651 16638 19223; G2 XOR 3645 16638 19229; G2 XOR 3639 16638 19235;
  G2 XOR 3633 16638 19241; G2 XOR 3627 16638 19247; G2 XOR 3621 16638 19253; G2 XOR 3615 16638 19259;
  G2 XOR 3609 16638 19265; G2 XOR 3603 16638 19271; G2 XOR 3596 16638 19278; G2 XOR 16827 16638 19216;
  G2 AND 19216 16946 19090; G2 XOR 19217 19090 6210; G2 XOR 19153 19090 3719; G2 XOR 16947 19090 6209;
  G2 AND 6210 6209 6208; G2 XOR 6208 19090 19091; G2 XOR 16948 19091 6206; G2 XOR 19154 19091 3718;
  G2 XOR 3719 16948 18965; G2 XOR 3718 16949 18966; G2 XOR 3653 16638 19221; G2 XOR 3654 16638 19220;
  G2 XOR 3656 16638 19218; G2 XOR 19218 19091 6207; G2 AND 6207 6206 6205; G2 XOR 6205 19091 19092;
  G2 XOR 19155 19092 3717; G2 XOR 16949 19092 6203; G2 XOR 3717 16950 18967; G2 XOR 3655 16638 19219;
  G2 XOR 19219 19092 6204; G2 AND 6204 6203 6202; G2 XOR 6202 19092 19093; G2 XOR 19156 19093 3716;
  G2 XOR 19220 19093 6201; G2 XOR 16950 19093 6200; G2 AND 6201 6200 6199; G2 XOR 6199 19093 19094;
  G2 XOR 19157 19094 3715; G2 XOR 16951 19094 6197; G2 XOR 19221 19094 6198; G2 AND 6198 6197 6196;
  G2 XOR 6196 19094 19095; G2 XOR 19158 19095 3714; G2 XOR 16952 19095 6194; G2 XOR 3716 16951 18968;
  G2 XOR 3715 16952 18969; G2 XOR 3714 16953 18970; G2 XOR 3652 16638 19222; G2 XOR 19222 19095 6195;
  G2 AND 6195 6194 6193; G2 XOR 6193 19095 19096; G2 XOR 19223 19096 6192; G2 XOR 19159 19096 3713;
  G2 XOR 16953 19096 6191; G2 AND 6192 6191 6190; G2 XOR 6190 19096 19097; G2 XOR 16954 19097 6188;
  G2 XOR 19160 19097 3712; G2 XOR 3713 16954 18971; G2 XOR 3712 16955 18972; G2 XOR 3647 16638 19227;
  G2 XOR 3648 16638 19226; G2 XOR 3650 16638 19224; G2 XOR 19224 19097 6189; G2 AND 6189 6188 6187;
  G2 XOR 6187 19097 19098; G2 XOR 19161 19098 3711; G2 XOR 16955 19098 6185; G2 XOR 3711 16956 18973;
  G2 XOR 3649 16638 19225; G2 XOR 19225 19098 6186; G2 AND 6186 6185 6184; G2 XOR 6184 19098 19099;
  G2 XOR 19162 19099 3710; G2 XOR 19226 19099 6183; G2 XOR 16956 19099 6182; G2 AND 6183 6182 6181;
  G2 XOR 6181 19099 19100; G2 XOR 19163 19100 3709; G2 XOR 16957 19100 6179; G2 XOR 19227 19100 6180;
  G2 AND 6180 6179 6178; G2 XOR 6178 19100 19101; G2 XOR 19164 19101 3708; G2 XOR 16958 19101 6176;
  G2 XOR 3710 16957 18974; G2 XOR 3709 16958 18975; G2 XOR 3708 16959 18976; G2 XOR 3646 16638 19228;
  G2 XOR 19228 19101 6177; G2 AND 6177 6176 6175; G2 XOR 6175 19101 19102; G2 XOR 19229 19102 6174;
  G2 XOR 19165 19102 3707; G2 XOR 16959 19102 6173; G2 AND 6174 6173 6172; G2 XOR 6172 19102 19103;
  G2 XOR 16960 19103 6170; G2 XOR 19166 19103 3706; G2 XOR 3707 16960 18977; G2 XOR 3706 16961 18978;
  G2 XOR 3641 16638 19233; G2 XOR 3642 16638 19232; G2 XOR 3644 16638 19230; G2 XOR 19230 19103 6171;
  G2 AND 6171 6170 6169; G2 XOR 6169 19103 19104; G2 XOR 19167 19104 3705; G2 XOR 16961 19104 6167;
  G2 XOR 3705 16962 18979; G2 XOR 3643 16638 19231; G2 XOR 19231 19104 6168; G2 AND 6168 6167 6166;
  G2 XOR 6166 19104 19105; G2 XOR 19168 19105 3704; G2 XOR 19232 19105 6165; G2 XOR 16962 19105 6164;
  G2 AND 6165 6164 6163; G2 XOR 6163 19105 19106; G2 XOR 19169 19106 3703; G2 XOR 16963 19106 6161;
  G2 XOR 19233 19106 6162; G2 AND 6162 6161 6160; G2 XOR 6160 19106 19107; G2 XOR 19170 19107 3702;
  G2 XOR 16964 19107 6158; G2 XOR 3704 16963 18980; G2 XOR 3703 16964 18981; G2 XOR 3702 16965 18982;
  G2 XOR 3640 16638 19234; G2 XOR 19234 19107 6159; G2 AND 6159 6158 6157; G2 XOR 6157 19107 19108;
  G2 XOR 19235 19108 6156; G2 XOR 19171 19108 3701; G2 XOR 16965 19108 6155; G2 AND 6156 6155 6154;
  G2 XOR 6154 19108 19109; G2 XOR 16966 19109 6152; G2 XOR 19172 19109 3700; G2 XOR 3701 16966 18983;
  G2 XOR 3700 16967 18984; G2 XOR 3635 16638 19239; G2 XOR 3636 16638 19238; G2 XOR 3638 16638 19236;
  G2 XOR 19236 19109 6153; G2 AND 6153 6152 6151; G2 XOR 6151 19109 19110; G2 XOR 19173 19110 3699;
  G2 XOR 16967 19110 6149; G2 XOR 3699 16968 18985; G2 XOR 3637 16638 19237; G2 XOR 19237 19110 6150;
  G2 AND 6150 6149 6148; G2 XOR 6148 19110 19111; G2 XOR 19174 19111 3698; G2 XOR 19238 19111 6147;
  G2 XOR 16968 19111 6146; G2 AND 6147 6146 6145; G2 XOR 6145 19111 19112; G2 XOR 19175 19112 3697;
  G2 XOR 16969 19112 6143; G2 XOR 19239 19112 6144; G2 AND 6144 6143 6142; G2 XOR 6142 19112 19113;
  G2 XOR 19176 19113 3696; G2 XOR 16970 19113 6140; G2 XOR 3698 16969 18986; G2 XOR 3697 16970 18987;
  G2 XOR 3696 16971 18988; G2 XOR 3634 16638 19240; G2 XOR 19240 19113 6141; G2 AND 6141 6140 6139;
  G2 XOR 6139 19113 19114; G2 XOR 19241 19114 6138; G2 XOR 19177 19114 3695; G2 XOR 16971 19114 6137;
  G2 AND 6138 6137 6136; G2 XOR 6136 19114 19115; G2 XOR 16972 19115 6134; G2 XOR 19178 19115 3694;
  G2 XOR 3695 16972 18989; G2 XOR 3694 16973 18990; G2 XOR 3629 16638 19245; G2 XOR 3630 16638 19244;
  G2 XOR 3632 16638 19242; G2 XOR 19242 19115 6135; G2 AND 6135 6134 6133; G2 XOR 6133 19115 19116;
  G2 XOR 16973 19116 6131; G2 XOR 19179 19116 3693; G2 XOR 3693 16974 18991; G2 XOR 3631 16638 19243;
  G2 XOR 19243 19116 6132; G2 AND 6132 6131 6130; G2 XOR 6130 19116 19117; G2 XOR 19180 19117 3692;
  G2 XOR 3692 16975 18992; G2 XOR 16974 19117 6128; G2 XOR 19244 19117 6129; G2 AND 6129 6128 6127;
  G2 XOR 6127 19117 19118; G2 XOR 19245 19118 6126; G2 XOR 16975 19118 6125; G2 AND 6126 6125 6124;
  G2 XOR 6124 19118 19119; G2 XOR 16976 19119 6122; G2 XOR 19182 19119 3690; G2 XOR 3690 16977 18994;
  G2 XOR 19181 19118 3691; G2 XOR 3691 16976 18993; G2 XOR 3628 16638 19246; G2 XOR 19246 19119 6123;
  G2 AND 6123 6122 6121; G2 XOR 6121 19119 19120; G2 XOR 16977 19120 6119; G2 XOR 19183 19120 3689;
  G2 XOR 3689 16978 18995; G2 XOR 19247 19120 6120; G2 AND 6120 6119 6118; G2 XOR 6118 19120 19121;
  G2 XOR 16978 19121 6116; G2 XOR 19184 19121 3688; G2 XOR 3688 16979 18996; G2 XOR 3623 16638 19251;
  G2 XOR 3624 16638 19250; G2 XOR 3626 16638 19248; G2 XOR 19248 19121 6117; G2 AND 6117 6116 6115;
  G2 XOR 6115 19121 19122; G2 XOR 16979 19122 6113; G2 XOR 19185 19122 3687; G2 XOR 3687 16980 18997;
  G2 XOR 3625 16638 19249; G2 XOR 19249 19122 6114; G2 AND 6114 6113 6112; G2 XOR 6112 19122 19123;
  G2 XOR 16980 19123 6110; G2 XOR 19250 19123 6111; G2 AND 6111 6110 6109; G2 XOR 6109 19123 19124;
  G2 XOR 19251 19124 6108; G2 XOR 19187 19124 3685; G2 XOR 16981 19124 6107; G2 AND 6108 6107 6106;
  G2 XOR 3685 16982 18999; G2 XOR 6106 19124 19125; G2 XOR 16982 19125 6104; G2 XOR 19186 19123 3686;
  G2 XOR 3686 16981 18998; G2 XOR 19188 19125 3684; G2 XOR 3684 16983 19000; G2 XOR 3622 16638 19252;
  G2 XOR 19252 19125 6105; G2 AND 6105 6104 6103; G2 XOR 6103 19125 19126; G2 XOR 16983 19126 6101;
  G2 XOR 19189 19126 3683; G2 XOR 3683 16984 19001; G2 XOR 19253 19126 6102; G2 AND 6102 6101 6100;
  G2 XOR 6100 19126 19127; G2 XOR 19190 19127 3682; G2 XOR 16984 19127 6098; G2 XOR 3682 16985 19002;
  G2 XOR 3617 16638 19257; G2 XOR 3618 16638 19256; G2 XOR 3620 16638 19254; G2 XOR 19254 19127 6099;
  G2 AND 6099 6098 6097; G2 XOR 6097 19127 19128; G2 XOR 16985 19128 6095; G2 XOR 19191 19128 3681;
  G2 XOR 3681 16986 19003; G2 XOR 3619 16638 19255; G2 XOR 19255 19128 6096; G2 AND 6096 6095 6094;
  G2 XOR 6094 19128 19129; G2 XOR 16986 19129 6092; G2 XOR 19192 19129 3680; G2 XOR 19256 19129 6093;
  G2 AND 6093 6092 6091; G2 XOR 6091 19129 19130; G2 XOR 19257 19130 6090; G2 XOR 19193 19130 3679;
  G2 XOR 3680 16987 19004; G2 XOR 3679 16988 19005; G2 XOR 16987 19130 6089; G2 AND 6090 6089 6088;
  G2 XOR 6088 19130 19131; G2 XOR 16988 19131 6086; G2 XOR 19194 19131 3678; G2 XOR 3678 16989 19006;
  G2 XOR 3616 16638 19258; G2 XOR 19258 19131 6087; G2 AND 6087 6086 6085; G2 XOR 6085 19131 19132;
  G2 XOR 16989 19132 6083; G2 XOR 19259 19132 6084; G2 XOR 19195 19132 3677; G2 XOR 3677 16990 19007;
  G2 AND 6084 6083 6082; G2 XOR 6082 19132 19133; G2 XOR 16990 19133 6080; G2 XOR 19196 19133 3676;
  G2 XOR 3676 16991 19008; G2 XOR 3611 16638 19263; G2 XOR 3612 16638 19262; G2 XOR 3614 16638 19260;
  G2 XOR 19260 19133 6081; G2 AND 6081 6080 6079; G2 XOR 6079 19133 19134; G2 XOR 16991 19134 6077;
  G2 XOR 19197 19134 3675; G2 XOR 3675 16992 19009; G2 XOR 3613 16638 19261; G2 XOR 19261 19134 6078;
  G2 AND 6078 6077 6076; G2 XOR 6076 19134 19135; G2 XOR 16992 19135 6074; G2 XOR 19198 19135 3674;
  G2 XOR 19262 19135 6075; G2 AND 6075 6074 6073; G2 XOR 3674 16993 19010; G2 XOR 6073 19135 19136;
  G2 XOR 19263 19136 6072; G2 XOR 16993 19136 6071; G2 AND 6072 6071 6070; G2 XOR 6070 19136 19137;
  G2 XOR 16994 19137 6068; G2 XOR 19199 19136 3673; G2 XOR 3673 16994 19011; G2 XOR 19200 19137 3672;
  G2 XOR 3672 16995 19012; G2 XOR 3610 16638 19264; G2 XOR 19264 19137 6069; G2 AND 6069 6068 6067;
  G2 XOR 6067 19137 19138; G2 XOR 19201 19138 3671; G2 XOR 16995 19138 6065; G2 XOR 3671 16996 19013;
  G2 XOR 19265 19138 6066; G2 AND 6066 6065 6064; G2 XOR 6064 19138 19139; G2 XOR 16996 19139 6062;
  G2 XOR 19202 19139 3670; G2 XOR 3670 16997 19014; G2 XOR 3605 16638 19269; G2 XOR 3606 16638 19268;
  G2 XOR 3608 16638 19266; G2 XOR 19266 19139 6063; G2 AND 6063 6062 6061; G2 XOR 6061 19139 19140;
  G2 XOR 19203 19140 3669; G2 XOR 3669 16998 19015; G2 XOR 16997 19140 6059; G2 XOR 3607 16638 19267;
  G2 XOR 19267 19140 6060; G2 AND 6060 6059 6058; G2 XOR 6058 19140 19141; G2 XOR 19204 19141 3668;
  G2 XOR 3668 16999 19016; G2 XOR 16998 19141 6056; G2 XOR 19268 19141 6057; G2 AND 6057 6056 6055;
  G2 XOR 6055 19141 19142; G2 XOR 19269 19142 6054; G2 XOR 16999 19142 6053; G2 XOR 19205 19142 3667;
  G2 XOR 3667 17000 19017; G2 AND 6054 6053 6052; G2 XOR 6052 19142 19143; G2 XOR 19206 19143 3666;
  G2 XOR 3666 17001 19018; G2 XOR 3604 16638 19270; G2 XOR 19270 19143 6051; G2 XOR 3599 16638 19275;
  G2 XOR 3600 16638 19274; G2 XOR 3602 16638 19272; G2 XOR 3601 16638 19273; G2 XOR 3598 16638 19276;
  G2 XOR 17000 19143 6050; G2 AND 6051 6050 6049; G2 XOR 6049 19143 19144; G2 XOR 19207 19144 3665;
  G2 XOR 17001 19144 6047; G2 XOR 3665 17002 19019; G2 XOR 19271 19144 6048; G2 AND 6048 6047 6046;
  G2 XOR 6046 19144 19145; G2 XOR 17002 19145 6044; G2 XOR 19272 19145 6045; G2 AND 6045 6044 6043;
  G2 XOR 6043 19145 19146; G2 XOR 19273 19146 6042; G2 XOR 17003 19146 6041; G2 AND 6042 6041 6040;
  G2 XOR 19209 19146 3663; G2 XOR 3663 17004 19021; G2 XOR 19208 19145 3664; G2 XOR 3664 17003 19020;
  G2 AND 16638 4535 17522; G2 XOR 6040 19146 19147; G2 XOR 17004 19147 6038; G2 XOR 19210 19147 3662;
  G2 XOR 3662 17005 19022; G2 XOR 19274 19147 6039; G2 AND 6039 6038 6037; G2 XOR 6037 19147 19148;
  G2 XOR 19275 19148 6036; G2 XOR 19211 19148 3661; G2 XOR 17005 19148 6035; G2 AND 6036 6035 6034;
  G2 XOR 6034 19148 19149; G2 XOR 3661 17006 19023; G2 XOR 17006 19149 6032; G2 XOR 19212 19149 3660;
  G2 XOR 3660 17007 19024; G2 XOR 19276 19149 6033; G2 AND 6033 6032 6031; G2 XOR 6031 19149 19150;
  G2 XOR 19213 19150 3659; G2 XOR 3659 17008 19025; G2 XOR 17007 19150 6029; G2 XOR 3597 16638 19277;
  G2 XOR 19277 19150 6030; G2 AND 6030 6029 6028; G2 XOR 6028 19150 19151; G2 XOR 17008 19151 6026;
  G2 XOR 19278 19151 6027; G2 AND 6027 6026 6025; G2 XOR 6025 19151 19152; G2 XOR 19215 19152 185;
  G2 XOR 19214 19151 3658; G2 XOR 3658 17009 19026; G1 INV 185 16637; G2 XOR 3720 16637 19028;
  G2 XOR 3714 16637 19034; G2 XOR 3708 16637 19040; G2 XOR 3702 16637 19046; G2 XOR 3696 16637 19052;
  G2 XOR 3690 16637 19058; G2 XOR 3684 16637 19064; G2 XOR 3678 16637 19070; G2 XOR 3672 16637 19076;
  G2 XOR 3666 16637 19082; G2 XOR 16826 16637 19027; G2 AND 19027 16946 18901; G2 XOR 16947 18901 6023;
  G2 XOR 19028 18901 6024; G2 AND 6024 6023 6022; G2 XOR 6022 18901 18902; G2 XOR 18965 18902 3781;
  G2 XOR 16948 18902 6020; G2 XOR 18964 18901 3782; G2 XOR 3782 16948 18776; G2 XOR 3781 16949 18777;
  G2 XOR 3716 16637 19032; G2 XOR 3717 16637 19031; G2 XOR 3719 16637 19029; G2 XOR 19029 18902 6021;
  G2 AND 6021 6020 6019; G2 XOR 6019 18902 18903; G2 XOR 18966 18903 3780; G2 XOR 16949 18903 6017;
  G2 XOR 3780 16950 18778; G2 XOR 3718 16637 19030; G2 XOR 19030 18903 6018; G2 AND 6018 6017 6016;
  G2 XOR 6016 18903 18904; G2 XOR 19031 18904 6015; G2 XOR 18967 18904 3779; G2 XOR 16950 18904 6014;
  G2 AND 6015 6014 6013; G2 XOR 6013 18904 18905; G2 XOR 18968 18905 3778; G2 XOR 19032 18905 6012;
  G2 XOR 16951 18905 6011; G2 AND 6012 6011 6010; G2 XOR 6010 18905 18906; G2 XOR 18969 18906 3777;
  G2 XOR 16952 18906 6008; G2 XOR 3779 16951 18779; G2 XOR 3778 16952 18780; G2 XOR 3777 16953 18781;
  G2 XOR 3715 16637 19033; G2 XOR 19033 18906 6009; G2 AND 6009 6008 6007; G2 XOR 6007 18906 18907;
  G2 XOR 16953 18907 6005; G2 XOR 19034 18907 6006; G2 AND 6006 6005 6004; G2 XOR 6004 18907 18908;
  G2 XOR 18971 18908 3775; G2 XOR 16954 18908 6002; G2 XOR 18970 18907 3776; G2 XOR 3776 16954 18782;
  G2 XOR 3775 16955 18783; G2 XOR 3710 16637 19038; G2 XOR 3711 16637 19037; G2 XOR 3713 16637 19035;
  G2 XOR 19035 18908 6003; G2 AND 6003 6002 6001; G2 XOR 6001 18908 18909; G2 XOR 18972 18909 3774;
  G2 XOR 16955 18909 5999; G2 XOR 3774 16956 18784; G2 XOR 3712 16637 19036; G2 XOR 19036 18909 6000;
  G2 AND 6000 5999 5998; G2 XOR 5998 18909 18910; G2 XOR 18973 18910 3773; G2 XOR 16956 18910 5996;
  G2 XOR 19037 18910 5997; G2 AND 5997 5996 5995; G2 XOR 5995 18910 18911; G2 XOR 18974 18911 3772;
  G2 XOR 19038 18911 5994; G2 XOR 16957 18911 5993; G2 AND 5994 5993 5992; G2 XOR 5992 18911 18912;
  G2 XOR 18975 18912 3771; G2 XOR 16958 18912 5990; G2 XOR 3773 16957 18785; G2 XOR 3772 16958 18786;
  G2 XOR 3771 16959 18787; G2 XOR 3709 16637 19039; G2 XOR 19039 18912 5991; G2 AND 5991 5990 5989;
  G2 XOR 5989 18912 18913; G2 XOR 16959 18913 5987; G2 XOR 19040 18913 5988; G2 AND 5988 5987 5986;
  G2 XOR 5986 18913 18914; G2 XOR 18977 18914 3769; G2 XOR 16960 18914 5984; G2 XOR 18976 18913 3770;
  G2 XOR 3770 16960 18788; G2 XOR 3769 16961 18789; G2 XOR 3704 16637 19044; G2 XOR 3705 16637 19043;
  G2 XOR 3707 16637 19041; G2 XOR 19041 18914 5985; G2 AND 5985 5984 5983; G2 XOR 5983 18914 18915;
  G2 XOR 18978 18915 3768; G2 XOR 16961 18915 5981; G2 XOR 3768 16962 18790; G2 XOR 3706 16637 19042;
  G2 XOR 19042 18915 5982; G2 AND 5982 5981 5980; G2 XOR 5980 18915 18916; G2 XOR 19043 18916 5979;
  G2 XOR 18979 18916 3767; G2 XOR 16962 18916 5978; G2 AND 5979 5978 5977; G2 XOR 5977 18916 18917;
  G2 XOR 18980 18917 3766; G2 XOR 19044 18917 5976; G2 XOR 16963 18917 5975; G2 AND 5976 5975 5974;
  G2 XOR 5974 18917 18918; G2 XOR 18981 18918 3765; G2 XOR 16964 18918 5972; G2 XOR 3767 16963 18791;
  G2 XOR 3766 16964 18792; G2 XOR 3765 16965 18793; G2 XOR 3703 16637 19045; G2 XOR 19045 18918 5973;
  G2 AND 5973 5972 5971; G2 XOR 5971 18918 18919; G2 XOR 16965 18919 5969; G2 XOR 19046 18919 5970;
  G2 AND 5970 5969 5968; G2 XOR 5968 18919 18920; G2 XOR 18983 18920 3763; G2 XOR 16966 18920 5966;
  G2 XOR 18982 18919 3764; G2 XOR 3764 16966 18794; G2 XOR 3763 16967 18795; G2 XOR 3698 16637 19050;
  G2 XOR 3699 16637 19049; G2 XOR 3701 16637 19047; G2 XOR 19047 18920 5967; G2 AND 5967 5966 5965;
  G2 XOR 5965 18920 18921; G2 XOR 18984 18921 3762; G2 XOR 16967 18921 5963; G2 XOR 3762 16968 18796;
  G2 XOR 3700 16637 19048; G2 XOR 19048 18921 5964; G2 AND 5964 5963 5962; G2 XOR 5962 18921 18922;
  G2 XOR 18985 18922 3761; G2 XOR 16968 18922 5960; G2 XOR 19049 18922 5961; G2 AND 5961 5960 5959;
  G2 XOR 5959 18922 18923; G2 XOR 18986 18923 3760; G2 XOR 19050 18923 5958; G2 XOR 3761 16969 18797;
  G2 XOR 3760 16970 18798; G2 XOR 3697 16637 19051; G2 XOR 3692 16637 19056; G2 XOR 3693 16637 19055;
  G2 XOR 3695 16637 19053; G2 XOR 3694 16637 19054; G2 XOR 3691 16637 19057; G2 XOR 3686 16637 19062;
  G2 XOR 3687 16637 19061; G2 XOR 3689 16637 19059; G2 XOR 3688 16637 19060; G2 XOR 3685 16637 19063;
  G2 XOR 3680 16637 19068; G2 XOR 3681 16637 19067; G2 XOR 3683 16637 19065; G2 XOR 3682 16637 19066;
  G2 XOR 3679 16637 19069; G2 XOR 3674 16637 19074; G2 XOR 3675 16637 19073; G2 XOR 3677 16637 19071;
  G2 XOR 3676 16637 19072; G2 XOR 3673 16637 19075; G2 XOR 3668 16637 19080; G2 XOR 3669 16637 19079;
  G2 XOR 3671 16637 19077; G2 XOR 3670 16637 19078; G2 XOR 3667 16637 19081; G2 XOR 3662 16637 19086;
  G2 XOR 3663 16637 19085; G2 XOR 3665 16637 19083; G2 XOR 3664 16637 19084; G2 XOR 3661 16637 19087;
  G2 XOR 3660 16637 19088; G2 XOR 16969 18923 5957; G2 AND 5958 5957 5956; G2 XOR 5956 18923 18924;
  G2 XOR 19051 18924 5955; G2 XOR 18987 18924 3759; G2 XOR 3759 16971 18799; G2 XOR 16970 18924 5954;
  G2 AND 5955 5954 5953; G2 XOR 5953 18924 18925; G2 XOR 18988 18925 3758; G2 XOR 3758 16972 18800;
  G2 XOR 16971 18925 5951; G2 XOR 19052 18925 5952; G2 AND 5952 5951 5950; G2 XOR 5950 18925 18926;
  G2 XOR 18989 18926 3757; G2 XOR 3757 16973 18801; G2 XOR 16972 18926 5948; G2 XOR 19053 18926 5949;
  G2 AND 5949 5948 5947; G2 XOR 5947 18926 18927; G2 XOR 18990 18927 3756; G2 XOR 3756 16974 18802;
  G2 XOR 19054 18927 5946; G2 XOR 16973 18927 5945; G2 AND 5946 5945 5944; G2 XOR 5944 18927 18928;
  G2 XOR 19055 18928 5943; G2 XOR 18991 18928 3755; G2 XOR 3755 16975 18803; G2 XOR 16974 18928 5942;
  G2 AND 5943 5942 5941; G2 XOR 5941 18928 18929; G2 XOR 16975 18929 5939; G2 XOR 18992 18929 3754;
  G2 XOR 3754 16976 18804; G2 XOR 19056 18929 5940; G2 AND 5940 5939 5938; G2 XOR 5938 18929 18930;
  G2 XOR 16976 18930 5936; G2 XOR 19057 18930 5937; G2 AND 5937 5936 5935; G2 XOR 18993 18930 3753;
  G2 XOR 3753 16977 18805; G2 XOR 5935 18930 18931; G2 XOR 18994 18931 3752; G2 XOR 3752 16978 18806;
  G2 XOR 19058 18931 5934; G2 XOR 16977 18931 5933; G2 AND 5934 5933 5932; G2 XOR 5932 18931 18932;
  G2 XOR 18995 18932 3751; G2 XOR 3751 16979 18807; G2 XOR 16978 18932 5930; G2 XOR 19059 18932 5931;
  G2 AND 5931 5930 5929; G2 XOR 5929 18932 18933; G2 XOR 18996 18933 3750; G2 XOR 3750 16980 18808;
  G2 XOR 16979 18933 5927; G2 XOR 19060 18933 5928; G2 AND 5928 5927 5926; G2 XOR 5926 18933 18934;
  G2 XOR 19061 18934 5925; G2 XOR 18997 18934 3749; G2 XOR 3749 16981 18809; G2 XOR 16980 18934 5924;
  G2 AND 5925 5924 5923; G2 XOR 5923 18934 18935; G2 XOR 19062 18935 5922; G2 XOR 18998 18935 3748;
  G2 XOR 3748 16982 18810; G2 AND 16637 4535 17521; G2 XOR 16981 18935 5921; G2 AND 5922 5921 5920;
  G2 XOR 5920 18935 18936; G2 XOR 19063 18936 5919; G2 XOR 18999 18936 3747; G2 XOR 3747 16983 18811;
  G2 XOR 16982 18936 5918; G2 AND 5919 5918 5917; G2 XOR 5917 18936 18937; G2 XOR 19000 18937 3746;
  G2 XOR 3746 16984 18812; G2 XOR 19064 18937 5916; G2 XOR 16983 18937 5915; G2 AND 5916 5915 5914;
  G2 XOR 5914 18937 18938; G2 XOR 19065 18938 5913; G2 XOR 19001 18938 3745; G2 XOR 3745 16985 18813;
  G2 XOR 16984 18938 5912; G2 AND 5913 5912 5911; G2 XOR 5911 18938 18939; G2 XOR 19066 18939 5910;
  G2 XOR 16985 18939 5909; G2 AND 5910 5909 5908; G2 XOR 5908 18939 18940; G2 XOR 19003 18940 3743;
  G2 XOR 3743 16987 18815; G2 XOR 16986 18940 5906; G2 XOR 19067 18940 5907; G2 AND 5907 5906 5905;
  G2 XOR 5905 18940 18941; G2 XOR 16987 18941 5903; G2 XOR 19004 18941 3742; G2 XOR 3742 16988 18816;
  G2 XOR 19068 18941 5904; G2 AND 5904 5903 5902; G2 XOR 5902 18941 18942; G2 XOR 19069 18942 5901;
  G2 XOR 19005 18942 3741; G2 XOR 3741 16989 18817; G2 XOR 16988 18942 5900; G2 AND 5901 5900 5899;
  G2 XOR 5899 18942 18943; G2 XOR 16989 18943 5897; G2 XOR 19070 18943 5898; G2 AND 5898 5897 5896;
  G2 XOR 5896 18943 18944; G2 XOR 16990 18944 5894; G2 XOR 19071 18944 5895; G2 AND 5895 5894 5893;
  G2 XOR 5893 18944 18945; G2 XOR 16991 18945 5891; G2 XOR 19072 18945 5892; G2 AND 5892 5891 5890;
  G2 XOR 5890 18945 18946; G2 XOR 19073 18946 5889; G2 XOR 19008 18945 3738; G2 XOR 3738 16992 18820;
  G2 XOR 19009 18946 3737; G2 XOR 3737 16993 18821; G2 XOR 19007 18944 3739; G2 XOR 3739 16991 18819;
  G2 XOR 19002 18939 3744; G2 XOR 3744 16986 18814; G2 XOR 16992 18946 5888; G2 AND 5889 5888 5887;
  G2 XOR 5887 18946 18947; G2 XOR 16993 18947 5885; G2 XOR 19074 18947 5886; G2 AND 5886 5885 5884;
  G2 XOR 19010 18947 3736; G2 XOR 3736 16994 18822; G2 XOR 5884 18947 18948; G2 XOR 16994 18948 5882;
  G2 XOR 19011 18948 3735; G2 XOR 3735 16995 18823; G2 XOR 19075 18948 5883; G2 AND 5883 5882 5881;
  G2 XOR 5881 18948 18949; G2 XOR 19012 18949 3734; G2 XOR 19076 18949 5880; G2 XOR 16995 18949 5879;
  G2 XOR 3734 16996 18824; G2 AND 5880 5879 5878; G2 XOR 5878 18949 18950; G2 XOR 19077 18950 5877;
  G2 XOR 19013 18950 3733; G2 XOR 3733 16997 18825; G2 XOR 16996 18950 5876; G2 AND 5877 5876 5875;
  G2 XOR 5875 18950 18951; G2 XOR 19078 18951 5874; G2 XOR 16997 18951 5873; G2 XOR 19014 18951 3732;
  G2 XOR 3732 16998 18826; G2 XOR 19006 18943 3740; G2 XOR 3740 16990 18818; G2 AND 5874 5873 5872;
  G2 XOR 5872 18951 18952; G2 XOR 16998 18952 5870; G2 XOR 19079 18952 5871; G2 AND 5871 5870 5869;
  G2 XOR 5869 18952 18953; G2 XOR 16999 18953 5867; G2 XOR 19016 18953 3730; G2 XOR 3730 17000 18828;
  G2 XOR 19080 18953 5868; G2 AND 5868 5867 5866; G2 XOR 5866 18953 18954; G2 XOR 17000 18954 5864;
  G2 XOR 19017 18954 3729; G2 XOR 3729 17001 18829; G2 XOR 19015 18952 3731; G2 XOR 3731 16999 18827;
  G2 XOR 19081 18954 5865; G2 AND 5865 5864 5863; G2 XOR 5863 18954 18955; G2 XOR 17001 18955 5861;
  G2 XOR 19018 18955 3728; G2 XOR 3728 17002 18830; G2 XOR 19082 18955 5862; G2 AND 5862 5861 5860;
  G2 XOR 5860 18955 18956; G2 XOR 19019 18956 3727; G2 XOR 19083 18956 5859; G2 XOR 17002 18956 5858;
  G2 XOR 3727 17003 18831; G2 AND 5859 5858 5857; G2 XOR 5857 18956 18957; G2 XOR 17003 18957 5855;
  G2 XOR 19020 18957 3726; G2 XOR 3726 17004 18832; G2 XOR 19084 18957 5856; G2 AND 5856 5855 5854;
  G2 XOR 5854 18957 18958; G2 XOR 19085 18958 5853; G2 XOR 17004 18958 5852; G2 XOR 19021 18958 3725;
  G2 XOR 3725 17005 18833; G2 AND 5853 5852 5851; G2 XOR 5851 18958 18959; G2 XOR 19086 18959 5850;
  G2 XOR 17005 18959 5849; G2 AND 5850 5849 5848; G2 XOR 5848 18959 18960; G2 XOR 17006 18960 5846;
  G2 XOR 19022 18959 3724; G2 XOR 3724 17006 18834; G2 XOR 19023 18960 3723; G2 XOR 3723 17007 18835;
  G2 XOR 19087 18960 5847; G2 AND 5847 5846 5845; G2 XOR 5845 18960 18961; G2 XOR 19024 18961 3722;
  G2 XOR 19088 18961 5844; G2 XOR 3722 17008 18836; G2 XOR 17007 18961 5843; G2 AND 5844 5843 5842;
  G2 XOR 5842 18961 18962; G2 XOR 19025 18962 3721; G2 XOR 3721 17009 18837; G2 XOR 17008 18962 5840;
  G2 XOR 3659 16637 19089; G2 XOR 19089 18962 5841; G2 AND 5841 5840 5839; G2 XOR 5839 18962 18963;
  G2 XOR 19026 18963 186; G1 INV 186 16636; G2 XOR 3782 16636 18840; G2 XOR 3776 16636 18846;
  G2 XOR 3770 16636 18852; G2 XOR 3764 16636 18858; G2 XOR 3758 16636 18864; G2 XOR 3752 16636 18870;
  G2 XOR 3746 16636 18876; G2 XOR 3740 16636 18882; G2 XOR 3734 16636 18888; G2 XOR 3728 16636 18894;
  G2 XOR 16825 16636 18838; G2 AND 18838 16946 18712; G2 XOR 18775 18712 3845; G2 XOR 16947 18712 5837;
  G2 XOR 3845 16948 18587; G2 XOR 3783 16636 18839; G2 XOR 18839 18712 5838; G2 AND 5838 5837 5836;
  G2 XOR 5836 18712 18713; G2 XOR 18776 18713 3844; G2 XOR 16948 18713 5834; G2 XOR 18840 18713 5835;
  G2 AND 5835 5834 5833; G2 XOR 5833 18713 18714; G2 XOR 18777 18714 3843; G2 XOR 16949 18714 5831;
  G2 XOR 3844 16949 18588; G2 XOR 3843 16950 18589; G2 XOR 3778 16636 18844; G2 XOR 3779 16636 18843;
  G2 XOR 3781 16636 18841; G2 XOR 18841 18714 5832; G2 AND 5832 5831 5830; G2 XOR 5830 18714 18715;
  G2 XOR 18778 18715 3842; G2 XOR 16950 18715 5828; G2 XOR 3842 16951 18590; G2 XOR 3780 16636 18842;
  G2 XOR 18842 18715 5829; G2 AND 5829 5828 5827; G2 XOR 5827 18715 18716; G2 XOR 18779 18716 3841;
  G2 XOR 18843 18716 5826; G2 XOR 3841 16952 18591; G2 XOR 3777 16636 18845; G2 XOR 3772 16636 18850;
  G2 XOR 3773 16636 18849; G2 XOR 3775 16636 18847; G2 XOR 3774 16636 18848; G2 XOR 3771 16636 18851;
  G2 XOR 3766 16636 18856; G2 XOR 3767 16636 18855; G2 XOR 3769 16636 18853; G2 XOR 3768 16636 18854;
  G2 XOR 3765 16636 18857; G2 XOR 3760 16636 18862; G2 XOR 3761 16636 18861; G2 XOR 3763 16636 18859;
  G2 XOR 3762 16636 18860; G2 XOR 3759 16636 18863; G2 XOR 3754 16636 18868; G2 XOR 3755 16636 18867;
  G2 XOR 3757 16636 18865; G2 XOR 3756 16636 18866; G2 XOR 3753 16636 18869; G2 XOR 3748 16636 18874;
  G2 XOR 3749 16636 18873; G2 XOR 3751 16636 18871; G2 XOR 3750 16636 18872; G2 XOR 3747 16636 18875;
  G2 XOR 3742 16636 18880; G2 XOR 3743 16636 18879; G2 XOR 3745 16636 18877; G2 XOR 3744 16636 18878;
  G2 XOR 3741 16636 18881; G2 XOR 3736 16636 18886; G2 XOR 3737 16636 18885; G2 XOR 3739 16636 18883;
  G2 XOR 3738 16636 18884; G2 XOR 3735 16636 18887; G2 XOR 3730 16636 18892; G2 XOR 3731 16636 18891;
  G2 XOR 3733 16636 18889; G2 XOR 3732 16636 18890; G2 XOR 3729 16636 18893; G2 XOR 3724 16636 18898;
  G2 XOR 3725 16636 18897; G2 XOR 3727 16636 18895; G2 XOR 3726 16636 18896; G2 XOR 3723 16636 18899;
  G2 AND 16636 4535 17520; G2 XOR 16951 18716 5825; G2 AND 5826 5825 5824; G2 XOR 5824 18716 18717;
  G2 XOR 18844 18717 5823; G2 XOR 18780 18717 3840; G2 XOR 16952 18717 5822; G2 AND 5823 5822 5821;
  G2 XOR 5821 18717 18718; G2 XOR 16953 18718 5819; G2 XOR 18845 18718 5820; G2 AND 5820 5819 5818;
  G2 XOR 5818 18718 18719; G2 XOR 18782 18719 3838; G2 XOR 16954 18719 5816; G2 XOR 18846 18719 5817;
  G2 AND 5817 5816 5815; G2 XOR 18781 18718 3839; G2 XOR 5815 18719 18720; G2 XOR 18783 18720 3837;
  G2 XOR 18847 18720 5814; G2 XOR 16955 18720 5813; G2 AND 5814 5813 5812; G2 XOR 5812 18720 18721;
  G2 XOR 18784 18721 3836; G2 XOR 16956 18721 5810; G2 XOR 18848 18721 5811; G2 AND 5811 5810 5809;
  G2 XOR 5809 18721 18722; G2 XOR 18785 18722 3835; G2 XOR 18849 18722 5808; G2 XOR 3840 16953 18592;
  G2 XOR 3839 16954 18593; G2 XOR 3838 16955 18594; G2 XOR 3837 16956 18595; G2 XOR 3836 16957 18596;
  G2 XOR 3835 16958 18597; G2 XOR 16957 18722 5807; G2 AND 5808 5807 5806; G2 XOR 5806 18722 18723;
  G2 XOR 16958 18723 5804; G2 XOR 18850 18723 5805; G2 AND 5805 5804 5803; G2 XOR 18786 18723 3834;
  G2 XOR 3834 16959 18598; G2 XOR 5803 18723 18724; G2 XOR 18787 18724 3833; G2 XOR 18851 18724 5802;
  G2 XOR 16959 18724 5801; G2 AND 5802 5801 5800; G2 XOR 5800 18724 18725; G2 XOR 18852 18725 5799;
  G2 XOR 18788 18725 3832; G2 XOR 3833 16960 18599; G2 XOR 3832 16961 18600; G2 XOR 16960 18725 5798;
  G2 AND 5799 5798 5797; G2 XOR 5797 18725 18726; G2 XOR 18853 18726 5796; G2 XOR 16961 18726 5795;
  G2 AND 5796 5795 5794; G2 XOR 5794 18726 18727; G2 XOR 16962 18727 5792; G2 XOR 18854 18727 5793;
  G2 XOR 18790 18727 3830; G2 XOR 18789 18726 3831; G2 AND 5793 5792 5791; G2 XOR 5791 18727 18728;
  G2 XOR 16963 18728 5789; G2 XOR 18791 18728 3829; G2 XOR 18855 18728 5790; G2 AND 5790 5789 5788;
  G2 XOR 3831 16962 18601; G2 XOR 3830 16963 18602; G2 XOR 3829 16964 18603; G2 XOR 5788 18728 18729;
  G2 XOR 16964 18729 5786; G2 XOR 18792 18729 3828; G2 XOR 18856 18729 5787; G2 AND 5787 5786 5785;
  G2 XOR 5785 18729 18730; G2 XOR 18793 18730 3827; G2 XOR 16965 18730 5783; G2 XOR 18857 18730 5784;
  G2 AND 5784 5783 5782; G2 XOR 5782 18730 18731; G2 XOR 18794 18731 3826; G2 XOR 16966 18731 5780;
  G2 XOR 18858 18731 5781; G2 AND 5781 5780 5779; G2 XOR 5779 18731 18732; G2 XOR 18795 18732 3825;
  G2 XOR 18859 18732 5778; G2 XOR 16967 18732 5777; G2 XOR 3828 16965 18604; G2 XOR 3827 16966 18605;
  G2 XOR 3826 16967 18606; G2 XOR 3825 16968 18607; G2 AND 5778 5777 5776; G2 XOR 5776 18732 18733;
  G2 XOR 16968 18733 5774; G2 XOR 18796 18733 3824; G2 XOR 3824 16969 18608; G2 XOR 18860 18733 5775;
  G2 AND 5775 5774 5773; G2 XOR 5773 18733 18734; G2 XOR 16969 18734 5771; G2 XOR 18797 18734 3823;
  G2 XOR 18861 18734 5772; G2 AND 5772 5771 5770; G2 XOR 5770 18734 18735; G2 XOR 18798 18735 3822;
  G2 XOR 18862 18735 5769; G2 XOR 16970 18735 5768; G2 AND 5769 5768 5767; G2 XOR 5767 18735 18736;
  G2 XOR 18863 18736 5766; G2 XOR 16971 18736 5765; G2 AND 5766 5765 5764; G2 XOR 5764 18736 18737;
  G2 XOR 18800 18737 3820; G2 XOR 16972 18737 5762; G2 XOR 18864 18737 5763; G2 AND 5763 5762 5761;
  G2 XOR 5761 18737 18738; G2 XOR 18801 18738 3819; G2 XOR 16973 18738 5759; G2 XOR 3823 16970 18609;
  G2 XOR 3822 16971 18610; G2 XOR 3820 16973 18612; G2 XOR 3819 16974 18613; G2 XOR 18865 18738 5760;
  G2 AND 5760 5759 5758; G2 XOR 18799 18736 3821; G2 XOR 3821 16972 18611; G2 XOR 5758 18738 18739;
  G2 XOR 16974 18739 5756; G2 XOR 18866 18739 5757; G2 XOR 18802 18739 3818; G2 XOR 3818 16975 18614;
  G2 AND 5757 5756 5755; G2 XOR 5755 18739 18740; G2 XOR 18803 18740 3817; G2 XOR 18867 18740 5754;
  G2 XOR 3817 16976 18615; G2 XOR 16975 18740 5753; G2 AND 5754 5753 5752; G2 XOR 5752 18740 18741;
  G2 XOR 18804 18741 3816; G2 XOR 18868 18741 5751; G2 XOR 16976 18741 5750; G2 AND 5751 5750 5749;
  G2 XOR 5749 18741 18742; G2 XOR 18869 18742 5748; G2 XOR 16977 18742 5747; G2 AND 5748 5747 5746;
  G2 XOR 5746 18742 18743; G2 XOR 18806 18743 3814; G2 XOR 16978 18743 5744; G2 XOR 18870 18743 5745;
  G2 AND 5745 5744 5743; G2 XOR 5743 18743 18744; G2 XOR 18807 18744 3813; G2 XOR 18871 18744 5742;
  G2 XOR 16979 18744 5741; G2 XOR 3816 16977 18616; G2 XOR 3814 16979 18618; G2 XOR 3813 16980 18619;
  G2 AND 5742 5741 5740; G2 XOR 5740 18744 18745; G2 XOR 18808 18745 3812; G2 XOR 3812 16981 18620;
  G2 XOR 16980 18745 5738; G2 XOR 18805 18742 3815; G2 XOR 3815 16978 18617; G2 XOR 18872 18745 5739;
  G2 AND 5739 5738 5737; G2 XOR 5737 18745 18746; G2 XOR 16981 18746 5735; G2 XOR 18809 18746 3811;
  G2 XOR 3811 16982 18621; G2 XOR 18873 18746 5736; G2 AND 5736 5735 5734; G2 XOR 5734 18746 18747;
  G2 XOR 18810 18747 3810; G2 XOR 16982 18747 5732; G2 XOR 18874 18747 5733; G2 XOR 3810 16983 18622;
  G2 AND 5733 5732 5731; G2 XOR 5731 18747 18748; G2 XOR 18811 18748 3809; G2 XOR 16983 18748 5729;
  G2 XOR 3809 16984 18623; G2 XOR 18875 18748 5730; G2 AND 5730 5729 5728; G2 XOR 5728 18748 18749;
  G2 XOR 18812 18749 3808; G2 XOR 18876 18749 5727; G2 XOR 3808 16985 18624; G2 XOR 16984 18749 5726;
  G2 AND 5727 5726 5725; G2 XOR 5725 18749 18750; G2 XOR 18877 18750 5724; G2 XOR 16985 18750 5723;
  G2 XOR 18813 18750 3807; G2 XOR 3807 16986 18625; G2 AND 5724 5723 5722; G2 XOR 5722 18750 18751;
  G2 XOR 18878 18751 5721; G2 XOR 16986 18751 5720; G2 AND 5721 5720 5719; G2 XOR 5719 18751 18752;
  G2 XOR 16987 18752 5717; G2 XOR 18815 18752 3805; G2 XOR 18879 18752 5718; G2 AND 5718 5717 5716;
  G2 XOR 5716 18752 18753; G2 XOR 18816 18753 3804; G2 XOR 18814 18751 3806; G2 XOR 18880 18753 5715;
  G2 XOR 16988 18753 5714; G2 AND 5715 5714 5713; G2 XOR 5713 18753 18754; G2 XOR 18817 18754 3803;
  G2 XOR 16989 18754 5711; G2 XOR 18881 18754 5712; G2 AND 5712 5711 5710; G2 XOR 5710 18754 18755;
  G2 XOR 16990 18755 5708; G2 XOR 3806 16987 18626; G2 XOR 3805 16988 18627; G2 XOR 3804 16989 18628;
  G2 XOR 3803 16990 18629; G2 XOR 18818 18755 3802; G2 XOR 3802 16991 18630; G2 XOR 18882 18755 5709;
  G2 AND 5709 5708 5707; G2 XOR 5707 18755 18756; G2 XOR 16991 18756 5705; G2 XOR 18819 18756 3801;
  G2 XOR 18883 18756 5706; G2 AND 5706 5705 5704; G2 XOR 3801 16992 18631; G2 XOR 5704 18756 18757;
  G2 XOR 18884 18757 5703; G2 XOR 16992 18757 5702; G2 AND 5703 5702 5701; G2 XOR 5701 18757 18758;
  G2 XOR 16993 18758 5699; G2 XOR 18821 18758 3799; G2 XOR 18885 18758 5700; G2 AND 5700 5699 5698;
  G2 XOR 5698 18758 18759; G2 XOR 18886 18759 5697; G2 XOR 18822 18759 3798; G2 XOR 3799 16994 18633;
  G2 XOR 3798 16995 18634; G2 XOR 16994 18759 5696; G2 AND 5697 5696 5695; G2 XOR 5695 18759 18760;
  G2 XOR 16995 18760 5693; G2 XOR 18823 18760 3797; G2 XOR 18887 18760 5694; G2 AND 5694 5693 5692;
  G2 XOR 5692 18760 18761; G2 XOR 16996 18761 5690; G2 XOR 18888 18761 5691; G2 AND 5691 5690 5689;
  G2 XOR 5689 18761 18762; G2 XOR 16997 18762 5687; G2 XOR 18825 18762 3795; G2 XOR 3797 16996 18635;
  G2 XOR 3795 16998 18637; G2 XOR 18820 18757 3800; G2 XOR 3800 16993 18632; G2 XOR 18824 18761 3796;
  G2 XOR 3796 16997 18636; G2 XOR 18889 18762 5688; G2 AND 5688 5687 5686; G2 XOR 5686 18762 18763;
  G2 XOR 18826 18763 3794; G2 XOR 18890 18763 5685; G2 XOR 3794 16999 18638; G2 XOR 16998 18763 5684;
  G2 AND 5685 5684 5683; G2 XOR 5683 18763 18764; G2 XOR 16999 18764 5681; G2 XOR 18891 18764 5682;
  G2 AND 5682 5681 5680; G2 XOR 18827 18764 3793; G2 XOR 5680 18764 18765; G2 XOR 18892 18765 5679;
  G2 XOR 18828 18765 3792; G2 XOR 17000 18765 5678; G2 AND 5679 5678 5677; G2 XOR 3793 17000 18639;
  G2 XOR 3792 17001 18640; G2 XOR 5677 18765 18766; G2 XOR 17001 18766 5675; G2 XOR 18893 18766 5676;
  G2 AND 5676 5675 5674; G2 XOR 5674 18766 18767; G2 XOR 18830 18767 3790; G2 XOR 17002 18767 5672;
  G2 XOR 3790 17003 18642; G2 XOR 18894 18767 5673; G2 AND 5673 5672 5671; G2 XOR 5671 18767 18768;
  G2 XOR 18831 18768 3789; G2 XOR 17003 18768 5669; G2 XOR 18895 18768 5670; G2 AND 5670 5669 5668;
  G2 XOR 5668 18768 18769; G2 XOR 18832 18769 3788; G2 XOR 17004 18769 5666; G2 XOR 18896 18769 5667;
  G2 AND 5667 5666 5665; G2 XOR 5665 18769 18770; G2 XOR 17005 18770 5663; G2 XOR 18833 18770 3787;
  G2 XOR 3789 17004 18643; G2 XOR 3788 17005 18644; G2 XOR 3787 17006 18645; G2 XOR 18897 18770 5664;
  G2 AND 5664 5663 5662; G2 XOR 5662 18770 18771; G2 XOR 18834 18771 3786; G2 XOR 18898 18771 5661;
  G2 XOR 17006 18771 5660; G2 XOR 3786 17007 18646; G2 AND 5661 5660 5659; G2 XOR 5659 18771 18772;
  G2 XOR 18899 18772 5658; G2 XOR 17007 18772 5657; G2 AND 5658 5657 5656; G2 XOR 5656 18772 18773;
  G2 XOR 18835 18772 3785; G2 XOR 3785 17008 18647; G2 XOR 17008 18773 5654; G2 XOR 18836 18773 3784;
  G2 XOR 3784 17009 18648; G2 XOR 18829 18766 3791; G2 XOR 3791 17002 18641; G2 XOR 3722 16636 18900;
  G2 XOR 18900 18773 5655; G2 AND 5655 5654 5653; G2 XOR 5653 18773 18774; G2 XOR 18837 18774 187;
  G1 INV 187 16635; G2 XOR 3845 16635 18651; G2 XOR 3839 16635 18657; G2 XOR 3833 16635 18663;
  G2 XOR 3827 16635 18669; G2 XOR 3821 16635 18675; G2 XOR 3815 16635 18681; G2 XOR 3809 16635 18687;
  G2 XOR 3803 16635 18693; G2 XOR 3797 16635 18699; G2 XOR 3791 16635 18705; G2 XOR 16824 16635 18649;
  G2 XOR 3846 16635 18650; G2 XOR 3841 16635 18655; G2 XOR 3842 16635 18654; G2 XOR 3844 16635 18652;
  G2 XOR 3843 16635 18653; G2 XOR 3840 16635 18656; G2 XOR 3835 16635 18661; G2 XOR 3836 16635 18660;
  G2 XOR 3838 16635 18658; G2 XOR 3837 16635 18659; G2 XOR 3834 16635 18662; G2 XOR 3829 16635 18667;
  G2 XOR 3830 16635 18666; G2 XOR 3832 16635 18664; G2 XOR 3831 16635 18665; G2 XOR 3828 16635 18668;
  G2 XOR 3823 16635 18673; G2 XOR 3824 16635 18672; G2 XOR 3826 16635 18670; G2 XOR 3825 16635 18671;
  G2 XOR 3822 16635 18674; G2 XOR 3817 16635 18679; G2 XOR 3818 16635 18678; G2 XOR 3820 16635 18676;
  G2 XOR 3819 16635 18677; G2 XOR 3816 16635 18680; G2 XOR 3811 16635 18685; G2 XOR 3812 16635 18684;
  G2 XOR 3814 16635 18682; G2 XOR 3813 16635 18683; G2 XOR 3810 16635 18686; G2 XOR 3805 16635 18691;
  G2 XOR 3806 16635 18690; G2 XOR 3808 16635 18688; G2 XOR 3807 16635 18689; G2 XOR 3804 16635 18692;
  G2 XOR 3799 16635 18697; G2 XOR 3800 16635 18696; G2 XOR 3802 16635 18694; G2 XOR 3801 16635 18695;
  G2 XOR 3798 16635 18698; G2 XOR 3793 16635 18703; G2 XOR 3794 16635 18702; G2 XOR 3796 16635 18700;
  G2 XOR 3795 16635 18701; G2 XOR 3792 16635 18704; G2 XOR 3787 16635 18709; G2 XOR 3788 16635 18708;
  G2 XOR 3790 16635 18706; G2 XOR 3789 16635 18707; G2 XOR 3786 16635 18710; G2 XOR 3785 16635 18711;
  G2 AND 16635 4535 17519; G2 AND 18649 16946 18523; G2 XOR 18586 18523 3908; G2 XOR 16947 18523 5651;
  G2 XOR 18650 18523 5652; G2 AND 5652 5651 5650; G2 XOR 5650 18523 18524; G2 XOR 18587 18524 3907;
  G2 XOR 18651 18524 5649; G2 XOR 16948 18524 5648; G2 AND 5649 5648 5647; G2 XOR 5647 18524 18525;
  G2 XOR 18588 18525 3906; G2 XOR 16949 18525 5645; G2 XOR 18652 18525 5646; G2 AND 5646 5645 5644;
  G2 XOR 5644 18525 18526; G2 XOR 18589 18526 3905; G2 XOR 18653 18526 5643; G2 XOR 16950 18526 5642;
  G2 AND 5643 5642 5641; G2 XOR 5641 18526 18527; G2 XOR 18654 18527 5640; G2 XOR 18590 18527 3904;
  G2 XOR 16951 18527 5639; G2 AND 5640 5639 5638; G2 XOR 5638 18527 18528; G2 XOR 16952 18528 5636;
  G2 XOR 18655 18528 5637; G2 AND 5637 5636 5635; G2 XOR 5635 18528 18529; G2 XOR 18592 18529 3902;
  G2 XOR 16953 18529 5633; G2 XOR 18656 18529 5634; G2 AND 5634 5633 5632; G2 XOR 18591 18528 3903;
  G2 XOR 5632 18529 18530; G2 XOR 18593 18530 3901; G2 XOR 18657 18530 5631; G2 XOR 16954 18530 5630;
  G2 AND 5631 5630 5629; G2 XOR 5629 18530 18531; G2 XOR 18594 18531 3900; G2 XOR 16955 18531 5627;
  G2 XOR 18658 18531 5628; G2 AND 5628 5627 5626; G2 XOR 5626 18531 18532; G2 XOR 18595 18532 3899;
  G2 XOR 18659 18532 5625; G2 XOR 16956 18532 5624; G2 AND 5625 5624 5623; G2 XOR 5623 18532 18533;
  G2 XOR 18660 18533 5622; G2 XOR 18596 18533 3898; G2 XOR 16957 18533 5621; G2 AND 5622 5621 5620;
  G2 XOR 5620 18533 18534; G2 XOR 16958 18534 5618; G2 XOR 18661 18534 5619; G2 AND 5619 5618 5617;
  G2 XOR 5617 18534 18535; G2 XOR 18598 18535 3896; G2 XOR 16959 18535 5615; G2 XOR 18662 18535 5616;
  G2 AND 5616 5615 5614; G2 XOR 18597 18534 3897; G2 XOR 3908 16948 18398; G2 XOR 3907 16949 18399;
  G2 XOR 3906 16950 18400; G2 XOR 3905 16951 18401; G2 XOR 3904 16952 18402; G2 XOR 3903 16953 18403;
  G2 XOR 3902 16954 18404; G2 XOR 3901 16955 18405; G2 XOR 3900 16956 18406; G2 XOR 3899 16957 18407;
  G2 XOR 3898 16958 18408; G2 XOR 3897 16959 18409; G2 XOR 3896 16960 18410; G2 XOR 5614 18535 18536;
  G2 XOR 18599 18536 3895; G2 XOR 18663 18536 5613; G2 XOR 16960 18536 5612; G2 XOR 3895 16961 18411;
  G2 AND 5613 5612 5611; G2 XOR 5611 18536 18537; G2 XOR 18664 18537 5610; G2 XOR 18600 18537 3894;
  G2 XOR 16961 18537 5609; G2 AND 5610 5609 5608; G2 XOR 5608 18537 18538; G2 XOR 16962 18538 5606;
  G2 XOR 18665 18538 5607; G2 AND 5607 5606 5605; G2 XOR 5605 18538 18539; G2 XOR 16963 18539 5603;
  G2 XOR 18666 18539 5604; G2 AND 5604 5603 5602; G2 XOR 18602 18539 3892; G2 XOR 3894 16962 18412;
  G2 XOR 3892 16964 18414; G2 XOR 5602 18539 18540; G2 XOR 16964 18540 5600; G2 XOR 18603 18540 3891;
  G2 XOR 18667 18540 5601; G2 AND 5601 5600 5599; G2 XOR 5599 18540 18541; G2 XOR 16965 18541 5597;
  G2 XOR 18604 18541 3890; G2 XOR 18668 18541 5598; G2 AND 5598 5597 5596; G2 XOR 3891 16965 18415;
  G2 XOR 3890 16966 18416; G2 XOR 5596 18541 18542; G2 XOR 18605 18542 3889; G2 XOR 18669 18542 5595;
  G2 XOR 16966 18542 5594; G2 XOR 3889 16967 18417; G2 AND 5595 5594 5593; G2 XOR 5593 18542 18543;
  G2 XOR 16967 18543 5591; G2 XOR 18670 18543 5592; G2 XOR 18606 18543 3888; G2 AND 5592 5591 5590;
  G2 XOR 5590 18543 18544; G2 XOR 18607 18544 3887; G2 XOR 18671 18544 5589; G2 XOR 3888 16968 18418;
  G2 XOR 3887 16969 18419; G2 XOR 16968 18544 5588; G2 AND 5589 5588 5587; G2 XOR 5587 18544 18545;
  G2 XOR 18608 18545 3886; G2 XOR 16969 18545 5585; G2 XOR 18672 18545 5586; G2 AND 5586 5585 5584;
  G2 XOR 5584 18545 18546; G2 XOR 18609 18546 3885; G2 XOR 16970 18546 5582; G2 XOR 18673 18546 5583;
  G2 AND 5583 5582 5581; G2 XOR 3886 16970 18420; G2 XOR 3885 16971 18421; G2 XOR 5581 18546 18547;
  G2 XOR 18674 18547 5580; G2 XOR 18610 18547 3884; G2 XOR 16971 18547 5579; G2 XOR 3884 16972 18422;
  G2 AND 5580 5579 5578; G2 XOR 5578 18547 18548; G2 XOR 16972 18548 5576; G2 XOR 18611 18548 3883;
  G2 XOR 18675 18548 5577; G2 AND 5577 5576 5575; G2 XOR 5575 18548 18549; G2 XOR 18612 18549 3882;
  G2 XOR 16973 18549 5573; G2 XOR 3883 16973 18423; G2 XOR 3882 16974 18424; G2 XOR 18601 18538 3893;
  G2 XOR 3893 16963 18413; G2 XOR 18676 18549 5574; G2 AND 5574 5573 5572; G2 XOR 5572 18549 18550;
  G2 XOR 16974 18550 5570; G2 XOR 18677 18550 5571; G2 AND 5571 5570 5569; G2 XOR 5569 18550 18551;
  G2 XOR 18678 18551 5568; G2 XOR 16975 18551 5567; G2 AND 5568 5567 5566; G2 XOR 18614 18551 3880;
  G2 XOR 5566 18551 18552; G2 XOR 18679 18552 5565; G2 XOR 18615 18552 3879; G2 XOR 16976 18552 5564;
  G2 AND 5565 5564 5563; G2 XOR 5563 18552 18553; G2 XOR 18616 18553 3878; G2 XOR 18680 18553 5562;
  G2 XOR 16977 18553 5561; G2 XOR 3880 16976 18426; G2 XOR 3879 16977 18427; G2 XOR 3878 16978 18428;
  G2 XOR 18613 18550 3881; G2 XOR 3881 16975 18425; G2 AND 5562 5561 5560; G2 XOR 5560 18553 18554;
  G2 XOR 16978 18554 5558; G2 XOR 18617 18554 3877; G2 XOR 3877 16979 18429; G2 XOR 18681 18554 5559;
  G2 AND 5559 5558 5557; G2 XOR 5557 18554 18555; G2 XOR 16979 18555 5555; G2 XOR 18618 18555 3876;
  G2 XOR 3876 16980 18430; G2 XOR 18682 18555 5556; G2 AND 5556 5555 5554; G2 XOR 5554 18555 18556;
  G2 XOR 18619 18556 3875; G2 XOR 16980 18556 5552; G2 XOR 18683 18556 5553; G2 AND 5553 5552 5551;
  G2 XOR 5551 18556 18557; G2 XOR 16981 18557 5549; G2 XOR 18684 18557 5550; G2 AND 5550 5549 5548;
  G2 XOR 18620 18557 3874; G2 XOR 3875 16981 18431; G2 XOR 3874 16982 18432; G2 XOR 5548 18557 18558;
  G2 XOR 18621 18558 3873; G2 XOR 18685 18558 5547; G2 XOR 3873 16983 18433; G2 XOR 16982 18558 5546;
  G2 AND 5547 5546 5545; G2 XOR 5545 18558 18559; G2 XOR 18686 18559 5544; G2 XOR 16983 18559 5543;
  G2 AND 5544 5543 5542; G2 XOR 5542 18559 18560; G2 XOR 18687 18560 5541; G2 XOR 16984 18560 5540;
  G2 AND 5541 5540 5539; G2 XOR 5539 18560 18561; G2 XOR 16985 18561 5537; G2 XOR 18688 18561 5538;
  G2 XOR 18623 18560 3871; G2 AND 5538 5537 5536; G2 XOR 5536 18561 18562; G2 XOR 16986 18562 5534;
  G2 XOR 18625 18562 3869; G2 XOR 18624 18561 3870; G2 XOR 18689 18562 5535; G2 AND 5535 5534 5533;
  G2 XOR 5533 18562 18563; G2 XOR 16987 18563 5531; G2 XOR 18690 18563 5532; G2 AND 5532 5531 5530;
  G2 XOR 18626 18563 3868; G2 XOR 3871 16985 18435; G2 XOR 3870 16986 18436; G2 XOR 3869 16987 18437;
  G2 XOR 3868 16988 18438; G2 XOR 18622 18559 3872; G2 XOR 3872 16984 18434; G2 XOR 5530 18563 18564;
  G2 XOR 18627 18564 3867; G2 XOR 3867 16989 18439; G2 XOR 18691 18564 5529; G2 XOR 16988 18564 5528;
  G2 AND 5529 5528 5527; G2 XOR 5527 18564 18565; G2 XOR 18692 18565 5526; G2 XOR 18628 18565 3866;
  G2 XOR 3866 16990 18440; G2 XOR 16989 18565 5525; G2 AND 5526 5525 5524; G2 XOR 5524 18565 18566;
  G2 XOR 18693 18566 5523; G2 XOR 16990 18566 5522; G2 AND 5523 5522 5521; G2 XOR 5521 18566 18567;
  G2 XOR 18694 18567 5520; G2 XOR 16991 18567 5519; G2 AND 5520 5519 5518; G2 XOR 5518 18567 18568;
  G2 XOR 16992 18568 5516; G2 XOR 18695 18568 5517; G2 AND 5517 5516 5515; G2 XOR 5515 18568 18569;
  G2 XOR 18631 18568 3863; G2 XOR 18696 18569 5514; G2 XOR 18632 18569 3862; G2 XOR 16993 18569 5513;
  G2 AND 5514 5513 5512; G2 XOR 5512 18569 18570; G2 XOR 18697 18570 5511; G2 XOR 18633 18570 3861;
  G2 XOR 3863 16993 18443; G2 XOR 3862 16994 18444; G2 XOR 3861 16995 18445; G2 XOR 18630 18567 3864;
  G2 XOR 3864 16992 18442; G2 XOR 18629 18566 3865; G2 XOR 3865 16991 18441; G2 XOR 16994 18570 5510;
  G2 AND 5511 5510 5509; G2 XOR 5509 18570 18571; G2 XOR 16995 18571 5507; G2 XOR 18698 18571 5508;
  G2 AND 5508 5507 5506; G2 XOR 5506 18571 18572; G2 XOR 18699 18572 5505; G2 XOR 18635 18572 3859;
  G2 XOR 3859 16997 18447; G2 XOR 16996 18572 5504; G2 AND 5505 5504 5503; G2 XOR 5503 18572 18573;
  G2 XOR 18636 18573 3858; G2 XOR 18700 18573 5502; G2 XOR 16997 18573 5501; G2 AND 5502 5501 5500;
  G2 XOR 5500 18573 18574; G2 XOR 16998 18574 5498; G2 XOR 18701 18574 5499; G2 XOR 18637 18574 3857;
  G2 AND 5499 5498 5497; G2 XOR 5497 18574 18575; G2 XOR 18638 18575 3856; G2 XOR 16999 18575 5495;
  G2 XOR 3858 16998 18448; G2 XOR 3857 16999 18449; G2 XOR 3856 17000 18450; G2 XOR 18702 18575 5496;
  G2 AND 5496 5495 5494; G2 XOR 5494 18575 18576; G2 XOR 17000 18576 5492; G2 XOR 18703 18576 5493;
  G2 AND 5493 5492 5491; G2 XOR 5491 18576 18577; G2 XOR 18640 18577 3854; G2 XOR 17001 18577 5489;
  G2 XOR 18704 18577 5490; G2 AND 5490 5489 5488; G2 XOR 18639 18576 3855; G2 XOR 3855 17001 18451;
  G2 XOR 3854 17002 18452; G2 XOR 5488 18577 18578; G2 XOR 18641 18578 3853; G2 XOR 17002 18578 5486;
  G2 XOR 18705 18578 5487; G2 AND 5487 5486 5485; G2 XOR 3853 17003 18453; G2 XOR 5485 18578 18579;
  G2 XOR 18706 18579 5484; G2 XOR 17003 18579 5483; G2 AND 5484 5483 5482; G2 XOR 5482 18579 18580;
  G2 XOR 18643 18580 3851; G2 XOR 18707 18580 5481; G2 XOR 17004 18580 5480; G2 XOR 3851 17005 18455;
  G2 XOR 18642 18579 3852; G2 XOR 3852 17004 18454; G2 AND 5481 5480 5479; G2 XOR 5479 18580 18581;
  G2 XOR 18644 18581 3850; G2 XOR 18708 18581 5478; G2 XOR 3850 17006 18456; G2 XOR 17005 18581 5477;
  G2 XOR 18634 18571 3860; G2 XOR 3860 16996 18446; G2 AND 5478 5477 5476; G2 XOR 5476 18581 18582;
  G2 XOR 18709 18582 5475; G2 XOR 18645 18582 3849; G2 XOR 17006 18582 5474; G2 AND 5475 5474 5473;
  G2 XOR 3849 17007 18457; G2 XOR 5473 18582 18583; G2 XOR 18646 18583 3848; G2 XOR 18710 18583 5472;
  G2 XOR 17007 18583 5471; G2 AND 5472 5471 5470; G2 XOR 5470 18583 18584; G2 XOR 18711 18584 5469;
  G2 XOR 18647 18584 3847; G2 XOR 3848 17008 18458; G2 XOR 3847 17009 18459; G2 XOR 17008 18584 5468;
  G2 AND 5469 5468 5467; G2 XOR 5467 18584 18585; G2 XOR 18648 18585 188; G1 INV 188 16634;
  G2 XOR 3907 16634 18463; G2 XOR 3901 16634 18469; G2 XOR 3895 16634 18475; G2 XOR 3889 16634 18481;
  G2 XOR 3883 16634 18487; G2 XOR 3877 16634 18493; G2 XOR 3871 16634 18499; G2 XOR 3865 16634 18505;
  G2 XOR 3859 16634 18511; G2 XOR 3853 16634 18517; G2 XOR 3909 16634 18461; G2 XOR 16823 16634 18460;
  G2 XOR 3908 16634 18462; G2 XOR 3903 16634 18467; G2 XOR 3904 16634 18466; G2 XOR 3906 16634 18464;
  G2 XOR 3905 16634 18465; G2 XOR 3902 16634 18468; G2 XOR 3897 16634 18473; G2 XOR 3898 16634 18472;
  G2 XOR 3900 16634 18470; G2 XOR 3899 16634 18471; G2 XOR 3896 16634 18474; G2 XOR 3891 16634 18479;
  G2 XOR 3892 16634 18478; G2 XOR 3894 16634 18476; G2 XOR 3893 16634 18477; G2 XOR 3890 16634 18480;
  G2 XOR 3885 16634 18485; G2 XOR 3886 16634 18484; G2 XOR 3888 16634 18482; G2 XOR 3887 16634 18483;
  G2 XOR 3884 16634 18486; G2 XOR 3879 16634 18491; G2 XOR 3880 16634 18490; G2 XOR 3882 16634 18488;
  G2 XOR 3881 16634 18489; G2 XOR 3878 16634 18492; G2 XOR 3873 16634 18497; G2 XOR 3874 16634 18496;
  G2 XOR 3876 16634 18494; G2 XOR 3875 16634 18495; G2 XOR 3872 16634 18498; G2 XOR 3867 16634 18503;
  G2 XOR 3868 16634 18502; G2 XOR 3870 16634 18500; G2 XOR 3869 16634 18501; G2 XOR 3866 16634 18504;
  G2 XOR 3861 16634 18509; G2 XOR 3862 16634 18508; G2 XOR 3864 16634 18506; G2 XOR 3863 16634 18507;
  G2 XOR 3860 16634 18510; G2 XOR 3855 16634 18515; G2 XOR 3856 16634 18514; G2 XOR 3858 16634 18512;
  G2 XOR 3857 16634 18513; G2 XOR 3854 16634 18516; G2 XOR 3849 16634 18521; G2 XOR 3850 16634 18520;
  G2 XOR 3852 16634 18518; G2 XOR 3851 16634 18519; G2 XOR 3848 16634 18522; G2 AND 16634 4535 17518;
  G2 AND 18460 16946 18334; G2 XOR 18397 18334 3971; G2 XOR 16947 18334 5465; G2 XOR 18461 18334 5466;
  G2 AND 5466 5465 5464; G2 XOR 5464 18334 18335; G2 XOR 18398 18335 3970; G2 XOR 18462 18335 5463;
  G2 XOR 16948 18335 5462; G2 AND 5463 5462 5461; G2 XOR 5461 18335 18336; G2 XOR 18399 18336 3969;
  G2 XOR 16949 18336 5459; G2 XOR 18463 18336 5460; G2 AND 5460 5459 5458; G2 XOR 5458 18336 18337;
  G2 XOR 18400 18337 3968; G2 XOR 18464 18337 5457; G2 XOR 16950 18337 5456; G2 AND 5457 5456 5455;
  G2 XOR 5455 18337 18338; G2 XOR 18465 18338 5454; G2 XOR 18401 18338 3967; G2 XOR 16951 18338 5453;
  G2 AND 5454 5453 5452; G2 XOR 5452 18338 18339; G2 XOR 16952 18339 5450; G2 XOR 18466 18339 5451;
  G2 AND 5451 5450 5449; G2 XOR 5449 18339 18340; G2 XOR 18403 18340 3965; G2 XOR 16953 18340 5447;
  G2 XOR 18467 18340 5448; G2 AND 5448 5447 5446; G2 XOR 18402 18339 3966; G2 XOR 5446 18340 18341;
  G2 XOR 18404 18341 3964; G2 XOR 18468 18341 5445; G2 XOR 16954 18341 5444; G2 AND 5445 5444 5443;
  G2 XOR 5443 18341 18342; G2 XOR 18405 18342 3963; G2 XOR 16955 18342 5441; G2 XOR 18469 18342 5442;
  G2 AND 5442 5441 5440; G2 XOR 5440 18342 18343; G2 XOR 18406 18343 3962; G2 XOR 18470 18343 5439;
  G2 XOR 16956 18343 5438; G2 AND 5439 5438 5437; G2 XOR 5437 18343 18344; G2 XOR 18471 18344 5436;
  G2 XOR 18407 18344 3961; G2 XOR 16957 18344 5435; G2 AND 5436 5435 5434; G2 XOR 5434 18344 18345;
  G2 XOR 16958 18345 5432; G2 XOR 18472 18345 5433; G2 AND 5433 5432 5431; G2 XOR 5431 18345 18346;
  G2 XOR 18409 18346 3959; G2 XOR 16959 18346 5429; G2 XOR 18473 18346 5430; G2 AND 5430 5429 5428;
  G2 XOR 18408 18345 3960; G2 XOR 5428 18346 18347; G2 XOR 18474 18347 5427; G2 XOR 16960 18347 5426;
  G2 XOR 18410 18347 3958; G2 AND 5427 5426 5425; G2 XOR 5425 18347 18348; G2 XOR 18411 18348 3957;
  G2 XOR 16961 18348 5423; G2 XOR 18475 18348 5424; G2 AND 5424 5423 5422; G2 XOR 5422 18348 18349;
  G2 XOR 18412 18349 3956; G2 XOR 18476 18349 5421; G2 XOR 16962 18349 5420; G2 AND 5421 5420 5419;
  G2 XOR 5419 18349 18350; G2 XOR 18413 18350 3955; G2 XOR 16963 18350 5417; G2 XOR 18477 18350 5418;
  G2 AND 5418 5417 5416; G2 XOR 5416 18350 18351; G2 XOR 18478 18351 5415; G2 XOR 16964 18351 5414;
  G2 AND 5415 5414 5413; G2 XOR 5413 18351 18352; G2 XOR 16965 18352 5411; G2 XOR 18479 18352 5412;
  G2 AND 5412 5411 5410; G2 XOR 18415 18352 3953; G2 XOR 18414 18351 3954; G2 XOR 5410 18352 18353;
  G2 XOR 18480 18353 5409; G2 XOR 16966 18353 5408; G2 XOR 18416 18353 3952; G2 AND 5409 5408 5407;
  G2 XOR 5407 18353 18354; G2 XOR 16967 18354 5405; G2 XOR 18417 18354 3951; G2 XOR 18481 18354 5406;
  G2 AND 5406 5405 5404; G2 XOR 5404 18354 18355; G2 XOR 18482 18355 5403; G2 XOR 18418 18355 3950;
  G2 XOR 16968 18355 5402; G2 AND 5403 5402 5401; G2 XOR 5401 18355 18356; G2 XOR 16969 18356 5399;
  G2 XOR 18483 18356 5400; G2 AND 5400 5399 5398; G2 XOR 18419 18356 3949; G2 XOR 5398 18356 18357;
  G2 XOR 16970 18357 5396; G2 XOR 18484 18357 5397; G2 AND 5397 5396 5395; G2 XOR 5395 18357 18358;
  G2 XOR 16971 18358 5393; G2 XOR 18485 18358 5394; G2 AND 5394 5393 5392; G2 XOR 18421 18358 3947;
  G2 XOR 18420 18357 3948; G2 XOR 5392 18358 18359; G2 XOR 18486 18359 5391; G2 XOR 16972 18359 5390;
  G2 XOR 18422 18359 3946; G2 AND 5391 5390 5389; G2 XOR 5389 18359 18360; G2 XOR 18423 18360 3945;
  G2 XOR 16973 18360 5387; G2 XOR 18487 18360 5388; G2 AND 5388 5387 5386; G2 XOR 5386 18360 18361;
  G2 XOR 18424 18361 3944; G2 XOR 18488 18361 5385; G2 XOR 16974 18361 5384; G2 AND 5385 5384 5383;
  G2 XOR 5383 18361 18362; G2 XOR 18489 18362 5382; G2 XOR 18425 18362 3943; G2 XOR 16975 18362 5381;
  G2 AND 5382 5381 5380; G2 XOR 5380 18362 18363; G2 XOR 16976 18363 5378; G2 XOR 18490 18363 5379;
  G2 AND 5379 5378 5377; G2 XOR 5377 18363 18364; G2 XOR 16977 18364 5375; G2 XOR 18491 18364 5376;
  G2 AND 5376 5375 5374; G2 XOR 18427 18364 3941; G2 XOR 18426 18363 3942; G2 XOR 5374 18364 18365;
  G2 XOR 18428 18365 3940; G2 XOR 18492 18365 5373; G2 XOR 16978 18365 5372; G2 AND 5373 5372 5371;
  G2 XOR 5371 18365 18366; G2 XOR 18429 18366 3939; G2 XOR 16979 18366 5369; G2 XOR 18493 18366 5370;
  G2 AND 5370 5369 5368; G2 XOR 5368 18366 18367; G2 XOR 18430 18367 3938; G2 XOR 18494 18367 5367;
  G2 XOR 16980 18367 5366; G2 AND 5367 5366 5365; G2 XOR 5365 18367 18368; G2 XOR 18431 18368 3937;
  G2 XOR 18495 18368 5364; G2 XOR 16981 18368 5363; G2 AND 5364 5363 5362; G2 XOR 5362 18368 18369;
  G2 XOR 18496 18369 5361; G2 XOR 16982 18369 5360; G2 AND 5361 5360 5359; G2 XOR 5359 18369 18370;
  G2 XOR 16983 18370 5357; G2 XOR 18433 18370 3935; G2 XOR 18497 18370 5358; G2 AND 5358 5357 5356;
  G2 XOR 18432 18369 3936; G2 XOR 5356 18370 18371; G2 XOR 18434 18371 3934; G2 XOR 18498 18371 5355;
  G2 XOR 16984 18371 5354; G2 AND 5355 5354 5353; G2 XOR 5353 18371 18372; G2 XOR 16985 18372 5351;
  G2 XOR 18435 18372 3933; G2 XOR 18499 18372 5352; G2 AND 5352 5351 5350; G2 XOR 5350 18372 18373;
  G2 XOR 18500 18373 5349; G2 XOR 18436 18373 3932; G2 XOR 16986 18373 5348; G2 AND 5349 5348 5347;
  G2 XOR 5347 18373 18374; G2 XOR 18501 18374 5346; G2 XOR 18437 18374 3931; G2 XOR 16987 18374 5345;
  G2 AND 5346 5345 5344; G2 XOR 5344 18374 18375; G2 XOR 18502 18375 5343; G2 XOR 16988 18375 5342;
  G2 AND 5343 5342 5341; G2 XOR 5341 18375 18376; G2 XOR 16989 18376 5339; G2 XOR 18439 18376 3929;
  G2 XOR 18503 18376 5340; G2 AND 5340 5339 5338; G2 XOR 18438 18375 3930; G2 XOR 5338 18376 18377;
  G2 XOR 18440 18377 3928; G2 XOR 18504 18377 5337; G2 XOR 16990 18377 5336; G2 AND 5337 5336 5335;
  G2 XOR 5335 18377 18378; G2 XOR 18441 18378 3927; G2 XOR 16991 18378 5333; G2 XOR 18505 18378 5334;
  G2 AND 5334 5333 5332; G2 XOR 5332 18378 18379; G2 XOR 18506 18379 5331; G2 XOR 18442 18379 3926;
  G2 XOR 16992 18379 5330; G2 AND 5331 5330 5329; G2 XOR 5329 18379 18380; G2 XOR 18507 18380 5328;
  G2 XOR 16993 18380 5327; G2 AND 5328 5327 5326; G2 XOR 5326 18380 18381; G2 XOR 16994 18381 5324;
  G2 XOR 18443 18380 3925; G2 XOR 18508 18381 5325; G2 AND 5325 5324 5323; G2 XOR 5323 18381 18382;
  G2 XOR 16995 18382 5321; G2 XOR 18509 18382 5322; G2 AND 5322 5321 5320; G2 XOR 18445 18382 3923;
  G2 XOR 18444 18381 3924; G2 XOR 5320 18382 18383; G2 XOR 18510 18383 5319; G2 XOR 18446 18383 3922;
  G2 XOR 16996 18383 5318; G2 AND 5319 5318 5317; G2 XOR 5317 18383 18384; G2 XOR 18447 18384 3921;
  G2 XOR 16997 18384 5315; G2 XOR 18511 18384 5316; G2 AND 5316 5315 5314; G2 XOR 5314 18384 18385;
  G2 XOR 18512 18385 5313; G2 XOR 18448 18385 3920; G2 XOR 16998 18385 5312; G2 AND 5313 5312 5311;
  G2 XOR 5311 18385 18386; G2 XOR 18513 18386 5310; G2 XOR 18449 18386 3919; G2 XOR 16999 18386 5309;
  G2 AND 5310 5309 5308; G2 XOR 5308 18386 18387; G2 XOR 17000 18387 5306; G2 XOR 18514 18387 5307;
  G2 AND 5307 5306 5305; G2 XOR 5305 18387 18388; G2 XOR 18451 18388 3917; G2 XOR 17001 18388 5303;
  G2 XOR 18515 18388 5304; G2 AND 5304 5303 5302; G2 XOR 18450 18387 3918; G2 XOR 5302 18388 18389;
  G2 XOR 18452 18389 3916; G2 XOR 18516 18389 5301; G2 XOR 17002 18389 5300; G2 XOR 3971 16948 18209;
  G2 XOR 3970 16949 18210; G2 XOR 3969 16950 18211; G2 XOR 3968 16951 18212; G2 XOR 3967 16952 18213;
  G2 XOR 3966 16953 18214; G2 XOR 3965 16954 18215; G2 XOR 3964 16955 18216; G2 XOR 3963 16956 18217;
  G2 XOR 3962 16957 18218; G2 XOR 3961 16958 18219; G2 XOR 3960 16959 18220; G2 XOR 3959 16960 18221;
  G2 XOR 3958 16961 18222; G2 XOR 3957 16962 18223; G2 XOR 3956 16963 18224; G2 XOR 3955 16964 18225;
  G2 XOR 3954 16965 18226; G2 XOR 3953 16966 18227; G2 XOR 3952 16967 18228; G2 XOR 3951 16968 18229;
  G2 XOR 3950 16969 18230; G2 XOR 3949 16970 18231; G2 XOR 3948 16971 18232; G2 XOR 3947 16972 18233;
  G2 XOR 3946 16973 18234; G2 XOR 3945 16974 18235; G2 XOR 3944 16975 18236; G2 XOR 3943 16976 18237;
  G2 XOR 3942 16977 18238; G2 XOR 3941 16978 18239; G2 XOR 3940 16979 18240; G2 XOR 3939 16980 18241;
  G2 XOR 3938 16981 18242; G2 XOR 3937 16982 18243; G2 XOR 3936 16983 18244; G2 XOR 3935 16984 18245;
  G2 XOR 3934 16985 18246; G2 XOR 3933 16986 18247; G2 XOR 3932 16987 18248; G2 XOR 3931 16988 18249;
  G2 XOR 3930 16989 18250; G2 XOR 3929 16990 18251; G2 XOR 3928 16991 18252; G2 XOR 3927 16992 18253;
  G2 XOR 3926 16993 18254; G2 XOR 3925 16994 18255; G2 XOR 3924 16995 18256; G2 XOR 3923 16996 18257;
  G2 XOR 3922 16997 18258; G2 XOR 3921 16998 18259; G2 XOR 3920 16999 18260; G2 XOR 3919 17000 18261;
  G2 XOR 3918 17001 18262; G2 XOR 3917 17002 18263; G2 XOR 3916 17003 18264; G2 AND 5301 5300 5299;
  G2 XOR 5299 18389 18390; G2 XOR 18453 18390 3915; G2 XOR 17003 18390 5297; G2 XOR 3915 17004 18265;
  G2 XOR 18517 18390 5298; G2 AND 5298 5297 5296; G2 XOR 5296 18390 18391; G2 XOR 18518 18391 5295;
  G2 XOR 18454 18391 3914; G2 XOR 3914 17005 18266; G2 XOR 17004 18391 5294; G2 AND 5295 5294 5293;
  G2 XOR 5293 18391 18392; G2 XOR 18455 18392 3913; G2 XOR 17005 18392 5291; G2 XOR 3913 17006 18267;
  G2 XOR 18519 18392 5292; G2 AND 5292 5291 5290; G2 XOR 5290 18392 18393; G2 XOR 17006 18393 5288;
  G2 XOR 18456 18393 3912; G2 XOR 3912 17007 18268; G2 XOR 18520 18393 5289; G2 AND 5289 5288 5287;
  G2 XOR 5287 18393 18394; G2 XOR 17007 18394 5285; G2 XOR 18521 18394 5286; G2 XOR 18457 18394 3911;
  G2 XOR 3911 17008 18269; G2 AND 5286 5285 5284; G2 XOR 5284 18394 18395; G2 XOR 17008 18395 5282;
  G2 XOR 18522 18395 5283; G2 XOR 18458 18395 3910; G2 XOR 3910 17009 18270; G2 AND 5283 5282 5281;
  G2 XOR 5281 18395 18396; G2 XOR 18459 18396 189; G1 INV 189 16633; G2 XOR 3970 16633 18274;
  G2 XOR 3964 16633 18280; G2 XOR 3958 16633 18286; G2 XOR 3952 16633 18292; G2 XOR 3946 16633 18298;
  G2 XOR 3940 16633 18304; G2 XOR 3934 16633 18310; G2 XOR 3928 16633 18316; G2 XOR 3922 16633 18322;
  G2 XOR 3916 16633 18328; G2 XOR 3972 16633 18272; G2 XOR 16822 16633 18271; G2 XOR 3971 16633 18273;
  G2 XOR 3966 16633 18278; G2 XOR 3967 16633 18277; G2 XOR 3969 16633 18275; G2 XOR 3968 16633 18276;
  G2 XOR 3965 16633 18279; G2 XOR 3960 16633 18284; G2 XOR 3961 16633 18283; G2 XOR 3963 16633 18281;
  G2 XOR 3962 16633 18282; G2 XOR 3959 16633 18285; G2 XOR 3954 16633 18290; G2 XOR 3955 16633 18289;
  G2 XOR 3957 16633 18287; G2 XOR 3956 16633 18288; G2 XOR 3953 16633 18291; G2 XOR 3948 16633 18296;
  G2 XOR 3949 16633 18295; G2 XOR 3951 16633 18293; G2 XOR 3950 16633 18294; G2 XOR 3947 16633 18297;
  G2 XOR 3942 16633 18302; G2 XOR 3943 16633 18301; G2 XOR 3945 16633 18299; G2 XOR 3944 16633 18300;
  G2 XOR 3941 16633 18303; G2 XOR 3936 16633 18308; G2 XOR 3937 16633 18307; G2 XOR 3939 16633 18305;
  G2 XOR 3938 16633 18306; G2 XOR 3935 16633 18309; G2 XOR 3930 16633 18314; G2 XOR 3931 16633 18313;
  G2 XOR 3933 16633 18311; G2 XOR 3932 16633 18312; G2 XOR 3929 16633 18315; G2 XOR 3924 16633 18320;
  G2 XOR 3925 16633 18319; G2 XOR 3927 16633 18317; G2 XOR 3926 16633 18318; G2 XOR 3923 16633 18321;
  G2 XOR 3918 16633 18326; G2 XOR 3919 16633 18325; G2 XOR 3921 16633 18323; G2 XOR 3920 16633 18324;
  G2 XOR 3917 16633 18327; G2 XOR 3912 16633 18332; G2 XOR 3913 16633 18331; G2 XOR 3915 16633 18329;
  G2 XOR 3914 16633 18330; G2 XOR 3911 16633 18333; G2 AND 18271 16946 18145; G2 XOR 18272 18145 5280;
  G2 XOR 16947 18145 5279; G2 AND 5280 5279 5278; G2 XOR 5278 18145 18146; G2 XOR 18209 18146 4033;
  G2 XOR 16948 18146 5276; G2 XOR 18273 18146 5277; G2 AND 5277 5276 5275; G2 XOR 5275 18146 18147;
  G2 XOR 18210 18147 4032; G2 XOR 18274 18147 5274; G2 XOR 16949 18147 5273; G2 AND 5274 5273 5272;
  G2 XOR 5272 18147 18148; G2 XOR 18275 18148 5271; G2 XOR 18211 18148 4031; G2 XOR 16950 18148 5270;
  G2 AND 5271 5270 5269; G2 XOR 5269 18148 18149; G2 XOR 16951 18149 5267; G2 XOR 18276 18149 5268;
  G2 AND 5268 5267 5266; G2 XOR 5266 18149 18150; G2 XOR 18213 18150 4029; G2 XOR 16952 18150 5264;
  G2 XOR 18277 18150 5265; G2 AND 5265 5264 5263; G2 XOR 18212 18149 4030; G2 XOR 5263 18150 18151;
  G2 XOR 18214 18151 4028; G2 XOR 18278 18151 5262; G2 XOR 16953 18151 5261; G2 AND 5262 5261 5260;
  G2 XOR 5260 18151 18152; G2 XOR 18215 18152 4027; G2 XOR 16954 18152 5258; G2 XOR 18279 18152 5259;
  G2 AND 5259 5258 5257; G2 XOR 5257 18152 18153; G2 XOR 18216 18153 4026; G2 XOR 18280 18153 5256;
  G2 XOR 16955 18153 5255; G2 AND 5256 5255 5254; G2 XOR 5254 18153 18154; G2 XOR 18281 18154 5253;
  G2 XOR 18217 18154 4025; G2 XOR 16956 18154 5252; G2 AND 5253 5252 5251; G2 XOR 5251 18154 18155;
  G2 XOR 16957 18155 5249; G2 XOR 18282 18155 5250; G2 AND 5250 5249 5248; G2 XOR 5248 18155 18156;
  G2 XOR 18219 18156 4023; G2 XOR 16958 18156 5246; G2 XOR 18283 18156 5247; G2 AND 5247 5246 5245;
  G2 XOR 18218 18155 4024; G2 XOR 5245 18156 18157; G2 XOR 18220 18157 4022; G2 XOR 18284 18157 5244;
  G2 XOR 16959 18157 5243; G2 AND 5244 5243 5242; G2 XOR 5242 18157 18158; G2 XOR 18221 18158 4021;
  G2 XOR 16960 18158 5240; G2 XOR 18285 18158 5241; G2 AND 5241 5240 5239; G2 XOR 5239 18158 18159;
  G2 XOR 18222 18159 4020; G2 XOR 18286 18159 5238; G2 XOR 16961 18159 5237; G2 AND 5238 5237 5236;
  G2 XOR 5236 18159 18160; G2 XOR 18287 18160 5235; G2 XOR 18223 18160 4019; G2 XOR 16962 18160 5234;
  G2 AND 5235 5234 5233; G2 XOR 5233 18160 18161; G2 XOR 16963 18161 5231; G2 XOR 18288 18161 5232;
  G2 AND 5232 5231 5230; G2 XOR 5230 18161 18162; G2 XOR 18225 18162 4017; G2 XOR 16964 18162 5228;
  G2 XOR 18289 18162 5229; G2 AND 5229 5228 5227; G2 XOR 18224 18161 4018; G2 XOR 5227 18162 18163;
  G2 XOR 18290 18163 5226; G2 XOR 16965 18163 5225; G2 XOR 18226 18163 4016; G2 AND 5226 5225 5224;
  G2 XOR 5224 18163 18164; G2 XOR 16966 18164 5222; G2 XOR 18227 18164 4015; G2 XOR 18291 18164 5223;
  G2 AND 5223 5222 5221; G2 XOR 5221 18164 18165; G2 XOR 18292 18165 5220; G2 XOR 18228 18165 4014;
  G2 XOR 16967 18165 5219; G2 AND 5220 5219 5218; G2 XOR 5218 18165 18166; G2 XOR 16968 18166 5216;
  G2 XOR 18229 18166 4013; G2 XOR 18293 18166 5217; G2 AND 5217 5216 5215; G2 XOR 5215 18166 18167;
  G2 XOR 16969 18167 5213; G2 XOR 18294 18167 5214; G2 AND 5214 5213 5212; G2 XOR 5212 18167 18168;
  G2 XOR 18295 18168 5211; G2 XOR 18231 18168 4011; G2 XOR 16970 18168 5210; G2 AND 5211 5210 5209;
  G2 XOR 18230 18167 4012; G2 XOR 5209 18168 18169; G2 XOR 18232 18169 4010; G2 XOR 18296 18169 5208;
  G2 XOR 16971 18169 5207; G2 AND 5208 5207 5206; G2 XOR 5206 18169 18170; G2 XOR 18233 18170 4009;
  G2 XOR 16972 18170 5204; G2 XOR 18297 18170 5205; G2 AND 5205 5204 5203; G2 XOR 5203 18170 18171;
  G2 XOR 18234 18171 4008; G2 XOR 18298 18171 5202; G2 XOR 16973 18171 5201; G2 AND 5202 5201 5200;
  G2 XOR 5200 18171 18172; G2 XOR 16974 18172 5198; G2 XOR 18235 18172 4007; G2 XOR 18299 18172 5199;
  G2 AND 5199 5198 5197; G2 XOR 5197 18172 18173; G2 XOR 16975 18173 5195; G2 XOR 18300 18173 5196;
  G2 AND 5196 5195 5194; G2 XOR 5194 18173 18174; G2 XOR 18237 18174 4005; G2 XOR 18301 18174 5193;
  G2 XOR 16976 18174 5192; G2 AND 5193 5192 5191; G2 XOR 18236 18173 4006; G2 XOR 5191 18174 18175;
  G2 XOR 16977 18175 5189; G2 XOR 18238 18175 4004; G2 XOR 18302 18175 5190; G2 AND 5190 5189 5188;
  G2 XOR 5188 18175 18176; G2 XOR 18239 18176 4003; G2 XOR 16978 18176 5186; G2 XOR 18303 18176 5187;
  G2 AND 5187 5186 5185; G2 XOR 5185 18176 18177; G2 XOR 18304 18177 5184; G2 XOR 18240 18177 4002;
  G2 XOR 16979 18177 5183; G2 AND 5184 5183 5182; G2 XOR 5182 18177 18178; G2 XOR 18305 18178 5181;
  G2 XOR 16980 18178 5180; G2 AND 5181 5180 5179; G2 XOR 5179 18178 18179; G2 XOR 16981 18179 5177;
  G2 XOR 18241 18178 4001; G2 XOR 18306 18179 5178; G2 AND 5178 5177 5176; G2 XOR 5176 18179 18180;
  G2 XOR 18243 18180 3999; G2 XOR 18307 18180 5175; G2 XOR 16982 18180 5174; G2 AND 5175 5174 5173;
  G2 XOR 18242 18179 4000; G2 XOR 5173 18180 18181; G2 XOR 18308 18181 5172; G2 XOR 16983 18181 5171;
  G2 XOR 18244 18181 3998; G2 AND 5172 5171 5170; G2 XOR 5170 18181 18182; G2 XOR 16984 18182 5168;
  G2 XOR 18245 18182 3997; G2 XOR 18309 18182 5169; G2 AND 5169 5168 5167; G2 XOR 5167 18182 18183;
  G2 XOR 18246 18183 3996; G2 XOR 18310 18183 5166; G2 XOR 16985 18183 5165; G2 AND 5166 5165 5164;
  G2 XOR 5164 18183 18184; G2 XOR 16986 18184 5162; G2 XOR 18311 18184 5163; G2 AND 5163 5162 5161;
  G2 XOR 18247 18184 3995; G2 XOR 5161 18184 18185; G2 XOR 16987 18185 5159; G2 XOR 18312 18185 5160;
  G2 AND 5160 5159 5158; G2 XOR 5158 18185 18186; G2 XOR 18249 18186 3993; G2 XOR 18313 18186 5157;
  G2 XOR 16988 18186 5156; G2 AND 5157 5156 5155; G2 XOR 18248 18185 3994; G2 XOR 5155 18186 18187;
  G2 XOR 18250 18187 3992; G2 XOR 16989 18187 5153; G2 XOR 18314 18187 5154; G2 AND 5154 5153 5152;
  G2 XOR 5152 18187 18188; G2 XOR 16990 18188 5150; G2 XOR 18251 18188 3991; G2 XOR 18315 18188 5151;
  G2 AND 5151 5150 5149; G2 XOR 5149 18188 18189; G2 XOR 18316 18189 5148; G2 XOR 18252 18189 3990;
  G2 XOR 16991 18189 5147; G2 AND 5148 5147 5146; G2 XOR 5146 18189 18190; G2 XOR 16992 18190 5144;
  G2 XOR 18317 18190 5145; G2 AND 5145 5144 5143; G2 XOR 5143 18190 18191; G2 XOR 18318 18191 5142;
  G2 XOR 18253 18190 3989; G2 XOR 16993 18191 5141; G2 AND 5142 5141 5140; G2 XOR 5140 18191 18192;
  G2 XOR 18319 18192 5139; G2 XOR 18255 18192 3987; G2 XOR 16994 18192 5138; G2 AND 5139 5138 5137;
  G2 XOR 18254 18191 3988; G2 XOR 5137 18192 18193; G2 XOR 18320 18193 5136; G2 XOR 16995 18193 5135;
  G2 XOR 18256 18193 3986; G2 AND 5136 5135 5134; G2 XOR 5134 18193 18194; G2 XOR 16996 18194 5132;
  G2 XOR 18257 18194 3985; G2 XOR 18321 18194 5133; G2 AND 5133 5132 5131; G2 XOR 5131 18194 18195;
  G2 XOR 18322 18195 5130; G2 XOR 18258 18195 3984; G2 XOR 16997 18195 5129; G2 AND 5130 5129 5128;
  G2 XOR 5128 18195 18196; G2 XOR 18259 18196 3983; G2 XOR 18323 18196 5127; G2 XOR 16998 18196 5126;
  G2 AND 5127 5126 5125; G2 XOR 5125 18196 18197; G2 XOR 16999 18197 5123; G2 XOR 18324 18197 5124;
  G2 AND 5124 5123 5122; G2 XOR 5122 18197 18198; G2 XOR 18261 18198 3981; G2 XOR 17000 18198 5120;
  G2 XOR 18325 18198 5121; G2 AND 5121 5120 5119; G2 XOR 18260 18197 3982; G2 XOR 5119 18198 18199;
  G2 XOR 18262 18199 3980; G2 XOR 17001 18199 5117; G2 XOR 18326 18199 5118; G2 AND 5118 5117 5116;
  G2 XOR 5116 18199 18200; G2 XOR 18263 18200 3979; G2 XOR 17002 18200 5114; G2 XOR 18327 18200 5115;
  G2 AND 5115 5114 5113; G2 XOR 5113 18200 18201; G2 XOR 18328 18201 5112; G2 XOR 18264 18201 3978;
  G2 XOR 4033 16949 18021; G2 XOR 4032 16950 18022; G2 XOR 4031 16951 18023; G2 XOR 4030 16952 18024;
  G2 XOR 4029 16953 18025; G2 XOR 4028 16954 18026; G2 XOR 4027 16955 18027; G2 XOR 4026 16956 18028;
  G2 XOR 4025 16957 18029; G2 XOR 4024 16958 18030; G2 XOR 4023 16959 18031; G2 XOR 4022 16960 18032;
  G2 XOR 4021 16961 18033; G2 XOR 4020 16962 18034; G2 XOR 4019 16963 18035; G2 XOR 4018 16964 18036;
  G2 XOR 4017 16965 18037; G2 XOR 4016 16966 18038; G2 XOR 4015 16967 18039; G2 XOR 4014 16968 18040;
  G2 XOR 4013 16969 18041; G2 XOR 4012 16970 18042; G2 XOR 4011 16971 18043; G2 XOR 4010 16972 18044;
  G2 XOR 4009 16973 18045; G2 XOR 4008 16974 18046; G2 XOR 4007 16975 18047; G2 XOR 4006 16976 18048;
  G2 XOR 4005 16977 18049; G2 XOR 4004 16978 18050; G2 XOR 4003 16979 18051; G2 XOR 4002 16980 18052;
  G2 XOR 4001 16981 18053; G2 XOR 4000 16982 18054; G2 XOR 3999 16983 18055; G2 XOR 3998 16984 18056;
  G2 XOR 3997 16985 18057; G2 XOR 3996 16986 18058; G2 XOR 3995 16987 18059; G2 XOR 3994 16988 18060;
  G2 XOR 3993 16989 18061; G2 XOR 3992 16990 18062; G2 XOR 3991 16991 18063; G2 XOR 3990 16992 18064;
  G2 XOR 3989 16993 18065; G2 XOR 3988 16994 18066; G2 XOR 3987 16995 18067; G2 XOR 3986 16996 18068;
  G2 XOR 3985 16997 18069; G2 XOR 3984 16998 18070; G2 XOR 3983 16999 18071; G2 XOR 3982 17000 18072;
  G2 XOR 3981 17001 18073; G2 XOR 3980 17002 18074; G2 XOR 3979 17003 18075; G2 XOR 3978 17004 18076;
  G2 XOR 18208 18145 4034; G2 XOR 4034 16948 18020; G2 XOR 17003 18201 5111; G2 AND 5112 5111 5110;
  G2 XOR 5110 18201 18202; G2 XOR 18329 18202 5109; G2 XOR 18265 18202 3977; G2 XOR 17004 18202 5108;
  G2 AND 5109 5108 5107; G2 XOR 5107 18202 18203; G2 XOR 17005 18203 5105; G2 XOR 18330 18203 5106;
  G2 AND 5106 5105 5104; G2 XOR 3977 17005 18077; G2 XOR 5104 18203 18204; G2 XOR 18267 18204 3975;
  G2 XOR 18331 18204 5103; G2 XOR 17006 18204 5102; G2 AND 5103 5102 5101; G2 XOR 5101 18204 18205;
  G2 XOR 18268 18205 3974; G2 XOR 18332 18205 5100; G2 XOR 17007 18205 5099; G2 AND 5100 5099 5098;
  G2 XOR 5098 18205 18206; G2 XOR 18269 18206 3973; G2 XOR 17008 18206 5096; G2 XOR 18333 18206 5097;
  G2 AND 5097 5096 5095; G2 XOR 5095 18206 18207; G2 XOR 18270 18207 190; G2 XOR 3975 17007 18079;
  G2 XOR 3974 17008 18080; G2 XOR 3973 17009 18081; G2 AND 16633 4535 17517; G1 INV 190 16632;
  G2 XOR 4032 16632 18086; G2 XOR 4026 16632 18092; G2 XOR 4020 16632 18098; G2 XOR 4014 16632 18104;
  G2 XOR 4008 16632 18110; G2 XOR 4002 16632 18116; G2 XOR 3996 16632 18122; G2 XOR 3990 16632 18128;
  G2 XOR 3984 16632 18134; G2 XOR 3978 16632 18140; G2 AND 16632 4535 17516; G2 XOR 4034 16632 18084;
  G2 XOR 4035 16632 18083; G2 XOR 16821 16632 18082; G2 XOR 4033 16632 18085; G2 XOR 4028 16632 18090;
  G2 XOR 4029 16632 18089; G2 XOR 4031 16632 18087; G2 XOR 4030 16632 18088; G2 XOR 4027 16632 18091;
  G2 XOR 4022 16632 18096; G2 XOR 4023 16632 18095; G2 XOR 4025 16632 18093; G2 XOR 4024 16632 18094;
  G2 XOR 4021 16632 18097; G2 XOR 4016 16632 18102; G2 XOR 4017 16632 18101; G2 XOR 4019 16632 18099;
  G2 XOR 4018 16632 18100; G2 XOR 4015 16632 18103; G2 XOR 4010 16632 18108; G2 XOR 4011 16632 18107;
  G2 XOR 4013 16632 18105; G2 XOR 4012 16632 18106; G2 XOR 4009 16632 18109; G2 XOR 4004 16632 18114;
  G2 XOR 4005 16632 18113; G2 XOR 4007 16632 18111; G2 XOR 4006 16632 18112; G2 XOR 4003 16632 18115;
  G2 XOR 3998 16632 18120; G2 XOR 3999 16632 18119; G2 XOR 4001 16632 18117; G2 XOR 4000 16632 18118;
  G2 XOR 3997 16632 18121; G2 XOR 3992 16632 18126; G2 XOR 3993 16632 18125; G2 XOR 3995 16632 18123;
  G2 XOR 3994 16632 18124; G2 XOR 3991 16632 18127; G2 XOR 3986 16632 18132; G2 XOR 3987 16632 18131;
  G2 XOR 3989 16632 18129; G2 XOR 3988 16632 18130; G2 XOR 3985 16632 18133; G2 XOR 3980 16632 18138;
  G2 XOR 3981 16632 18137; G2 XOR 3983 16632 18135; G2 XOR 3982 16632 18136; G2 XOR 3979 16632 18139;
  G2 XOR 3974 16632 18144; G2 XOR 3975 16632 18143; G2 XOR 3977 16632 18141; G2 AND 18082 16946 17956;
  G2 XOR 18083 17956 5094; G2 XOR 16947 17956 5093; G2 AND 5094 5093 5092; G2 XOR 5092 17956 17957;
  G2 XOR 18020 17957 4096; G2 XOR 16948 17957 5090; G2 XOR 18084 17957 5091; G2 AND 5091 5090 5089;
  G2 XOR 5089 17957 17958; G2 XOR 18021 17958 4095; G2 XOR 18085 17958 5088; G2 XOR 16949 17958 5087;
  G2 AND 5088 5087 5086; G2 XOR 5086 17958 17959; G2 XOR 18086 17959 5085; G2 XOR 18022 17959 4094;
  G2 XOR 16950 17959 5084; G2 AND 5085 5084 5083; G2 XOR 5083 17959 17960; G2 XOR 16951 17960 5081;
  G2 XOR 18087 17960 5082; G2 AND 5082 5081 5080; G2 XOR 5080 17960 17961; G2 XOR 18024 17961 4092;
  G2 XOR 16952 17961 5078; G2 XOR 18088 17961 5079; G2 AND 5079 5078 5077; G2 XOR 18023 17960 4093;
  G2 XOR 5077 17961 17962; G2 XOR 18025 17962 4091; G2 XOR 18089 17962 5076; G2 XOR 16953 17962 5075;
  G2 AND 5076 5075 5074; G2 XOR 5074 17962 17963; G2 XOR 18026 17963 4090; G2 XOR 16954 17963 5072;
  G2 XOR 18090 17963 5073; G2 AND 5073 5072 5071; G2 XOR 5071 17963 17964; G2 XOR 18027 17964 4089;
  G2 XOR 18091 17964 5070; G2 XOR 16955 17964 5069; G2 AND 5070 5069 5068; G2 XOR 5068 17964 17965;
  G2 XOR 18092 17965 5067; G2 XOR 18028 17965 4088; G2 XOR 16956 17965 5066; G2 AND 5067 5066 5065;
  G2 XOR 5065 17965 17966; G2 XOR 16957 17966 5063; G2 XOR 18093 17966 5064; G2 AND 5064 5063 5062;
  G2 XOR 5062 17966 17967; G2 XOR 18030 17967 4086; G2 XOR 16958 17967 5060; G2 XOR 18094 17967 5061;
  G2 AND 5061 5060 5059; G2 XOR 18029 17966 4087; G2 XOR 5059 17967 17968; G2 XOR 18031 17968 4085;
  G2 XOR 18095 17968 5058; G2 XOR 16959 17968 5057; G2 AND 5058 5057 5056; G2 XOR 5056 17968 17969;
  G2 XOR 18032 17969 4084; G2 XOR 16960 17969 5054; G2 XOR 18096 17969 5055; G2 AND 5055 5054 5053;
  G2 XOR 5053 17969 17970; G2 XOR 18033 17970 4083; G2 XOR 18097 17970 5052; G2 XOR 16961 17970 5051;
  G2 AND 5052 5051 5050; G2 XOR 5050 17970 17971; G2 XOR 18098 17971 5049; G2 XOR 18034 17971 4082;
  G2 XOR 16962 17971 5048; G2 AND 5049 5048 5047; G2 XOR 5047 17971 17972; G2 XOR 16963 17972 5045;
  G2 XOR 18099 17972 5046; G2 AND 5046 5045 5044; G2 XOR 5044 17972 17973; G2 XOR 18036 17973 4080;
  G2 XOR 16964 17973 5042; G2 XOR 18100 17973 5043; G2 AND 5043 5042 5041; G2 XOR 18035 17972 4081;
  G2 XOR 5041 17973 17974; G2 XOR 18101 17974 5040; G2 XOR 16965 17974 5039; G2 XOR 18037 17974 4079;
  G2 AND 5040 5039 5038; G2 XOR 5038 17974 17975; G2 XOR 16966 17975 5036; G2 XOR 18038 17975 4078;
  G2 XOR 18102 17975 5037; G2 AND 5037 5036 5035; G2 XOR 5035 17975 17976; G2 XOR 18039 17976 4077;
  G2 XOR 18103 17976 5034; G2 XOR 16967 17976 5033; G2 AND 5034 5033 5032; G2 XOR 5032 17976 17977;
  G2 XOR 18040 17977 4076; G2 XOR 16968 17977 5030; G2 XOR 18104 17977 5031; G2 AND 5031 5030 5029;
  G2 XOR 5029 17977 17978; G2 XOR 16969 17978 5027; G2 XOR 18105 17978 5028; G2 AND 5028 5027 5026;
  G2 XOR 5026 17978 17979; G2 XOR 16970 17979 5024; G2 XOR 18106 17979 5025; G2 AND 5025 5024 5023;
  G2 XOR 18042 17979 4074; G2 XOR 18041 17978 4075; G2 XOR 5023 17979 17980; G2 XOR 18107 17980 5022;
  G2 XOR 16971 17980 5021; G2 XOR 18043 17980 4073; G2 AND 5022 5021 5020; G2 XOR 5020 17980 17981;
  G2 XOR 16972 17981 5018; G2 XOR 18044 17981 4072; G2 XOR 18108 17981 5019; G2 AND 5019 5018 5017;
  G2 XOR 5017 17981 17982; G2 XOR 18045 17982 4071; G2 XOR 18109 17982 5016; G2 XOR 16973 17982 5015;
  G2 AND 5016 5015 5014; G2 XOR 5014 17982 17983; G2 XOR 18110 17983 5013; G2 XOR 18046 17983 4070;
  G2 XOR 16974 17983 5012; G2 AND 5013 5012 5011; G2 XOR 5011 17983 17984; G2 XOR 18111 17984 5010;
  G2 XOR 16975 17984 5009; G2 AND 5010 5009 5008; G2 XOR 5008 17984 17985; G2 XOR 18112 17985 5007;
  G2 XOR 16976 17985 5006; G2 AND 5007 5006 5005; G2 XOR 18048 17985 4068; G2 XOR 18047 17984 4069;
  G2 XOR 5005 17985 17986; G2 XOR 16977 17986 5003; G2 XOR 18049 17986 4067; G2 XOR 18113 17986 5004;
  G2 AND 5004 5003 5002; G2 XOR 5002 17986 17987; G2 XOR 16978 17987 5000; G2 XOR 18050 17987 4066;
  G2 XOR 18114 17987 5001; G2 AND 5001 5000 4999; G2 XOR 4999 17987 17988; G2 XOR 18051 17988 4065;
  G2 XOR 18115 17988 4998; G2 XOR 16979 17988 4997; G2 AND 4998 4997 4996; G2 XOR 4996 17988 17989;
  G2 XOR 18052 17989 4064; G2 XOR 18116 17989 4995; G2 XOR 16980 17989 4994; G2 AND 4995 4994 4993;
  G2 XOR 4993 17989 17990; G2 XOR 18117 17990 4992; G2 XOR 16981 17990 4991; G2 AND 4992 4991 4990;
  G2 XOR 4990 17990 17991; G2 XOR 16982 17991 4988; G2 XOR 18118 17991 4989; G2 AND 4989 4988 4987;
  G2 XOR 18054 17991 4062; G2 XOR 18053 17990 4063; G2 XOR 4987 17991 17992; G2 XOR 18119 17992 4986;
  G2 XOR 16983 17992 4985; G2 XOR 18055 17992 4061; G2 AND 4986 4985 4984; G2 XOR 4984 17992 17993;
  G2 XOR 18056 17993 4060; G2 XOR 16984 17993 4982; G2 XOR 18120 17993 4983; G2 AND 4983 4982 4981;
  G2 XOR 4981 17993 17994; G2 XOR 18057 17994 4059; G2 XOR 18121 17994 4980; G2 XOR 16985 17994 4979;
  G2 AND 4980 4979 4978; G2 XOR 4978 17994 17995; G2 XOR 18058 17995 4058; G2 XOR 16986 17995 4976;
  G2 XOR 18122 17995 4977; G2 AND 4977 4976 4975; G2 XOR 4975 17995 17996; G2 XOR 18123 17996 4974;
  G2 XOR 16987 17996 4973; G2 AND 4974 4973 4972; G2 XOR 4972 17996 17997; G2 XOR 16988 17997 4970;
  G2 XOR 18124 17997 4971; G2 AND 4971 4970 4969; G2 XOR 18060 17997 4056; G2 XOR 18059 17996 4057;
  G2 XOR 4969 17997 17998; G2 XOR 18125 17998 4968; G2 XOR 18061 17998 4055; G2 XOR 16989 17998 4967;
  G2 AND 4968 4967 4966; G2 XOR 4966 17998 17999; G2 XOR 18062 17999 4054; G2 XOR 16990 17999 4964;
  G2 XOR 18126 17999 4965; G2 AND 4965 4964 4963; G2 XOR 4963 17999 18000; G2 XOR 18127 18000 4962;
  G2 XOR 18063 18000 4053; G2 XOR 16991 18000 4961; G2 AND 4962 4961 4960; G2 XOR 4960 18000 18001;
  G2 XOR 18128 18001 4959; G2 XOR 18064 18001 4052; G2 XOR 16992 18001 4958; G2 AND 4959 4958 4957;
  G2 XOR 4957 18001 18002; G2 XOR 16993 18002 4955; G2 XOR 18129 18002 4956; G2 AND 4956 4955 4954;
  G2 XOR 4954 18002 18003; G2 XOR 18066 18003 4050; G2 XOR 18130 18003 4953; G2 XOR 16994 18003 4952;
  G2 AND 4953 4952 4951; G2 XOR 18065 18002 4051; G2 XOR 4951 18003 18004; G2 XOR 18131 18004 4950;
  G2 XOR 16995 18004 4949; G2 XOR 18067 18004 4049; G2 AND 4950 4949 4948; G2 XOR 4948 18004 18005;
  G2 XOR 18068 18005 4048; G2 XOR 16996 18005 4946; G2 XOR 18132 18005 4947; G2 AND 4947 4946 4945;
  G2 XOR 4945 18005 18006; G2 XOR 18069 18006 4047; G2 XOR 18133 18006 4944; G2 XOR 16997 18006 4943;
  G2 AND 4944 4943 4942; G2 XOR 4942 18006 18007; G2 XOR 18134 18007 4941; G2 XOR 16998 18007 4940;
  G2 AND 4941 4940 4939; G2 XOR 18070 18007 4046; G2 XOR 4939 18007 18008; G2 XOR 16999 18008 4937;
  G2 XOR 18135 18008 4938; G2 AND 4938 4937 4936; G2 XOR 4936 18008 18009; G2 XOR 18072 18009 4044;
  G2 XOR 18136 18009 4935; G2 XOR 17000 18009 4934; G2 AND 4935 4934 4933; G2 XOR 18071 18008 4045;
  G2 XOR 4933 18009 18010; G2 XOR 18137 18010 4932; G2 XOR 17001 18010 4931; G2 XOR 18073 18010 4043;
  G2 AND 4932 4931 4930; G2 XOR 4930 18010 18011; G2 XOR 17002 18011 4928; G2 XOR 18074 18011 4042;
  G2 XOR 18138 18011 4929; G2 AND 4929 4928 4927; G2 XOR 4927 18011 18012; G2 XOR 18075 18012 4041;
  G2 XOR 18139 18012 4926; G2 XOR 17003 18012 4925; G2 AND 4926 4925 4924; G2 XOR 4924 18012 18013;
  G2 XOR 17004 18013 4922; G2 XOR 18076 18013 4040; G2 XOR 18140 18013 4923; G2 AND 4923 4922 4921;
  G2 XOR 4921 18013 18014; G2 XOR 18077 18014 4039; G2 XOR 17005 18014 4919; G2 XOR 18141 18014 4920;
  G2 AND 4920 4919 4918; G2 XOR 4918 18014 18015; G2 XOR 17006 18015 4916; G2 XOR 4096 16949 17832;
  G2 XOR 4095 16950 17833; G2 XOR 4094 16951 17834; G2 XOR 4093 16952 17835; G2 XOR 4092 16953 17836;
  G2 XOR 4091 16954 17837; G2 XOR 4090 16955 17838; G2 XOR 4089 16956 17839; G2 XOR 4088 16957 17840;
  G2 XOR 4087 16958 17841; G2 XOR 4086 16959 17842; G2 XOR 4085 16960 17843; G2 XOR 4084 16961 17844;
  G2 XOR 4083 16962 17845; G2 XOR 4082 16963 17846; G2 XOR 4081 16964 17847; G2 XOR 4080 16965 17848;
  G2 XOR 4079 16966 17849; G2 XOR 4078 16967 17850; G2 XOR 4077 16968 17851; G2 XOR 4076 16969 17852;
  G2 XOR 4075 16970 17853; G2 XOR 4074 16971 17854; G2 XOR 4073 16972 17855; G2 XOR 4072 16973 17856;
  G2 XOR 4071 16974 17857; G2 XOR 4070 16975 17858; G2 XOR 4069 16976 17859; G2 XOR 4068 16977 17860;
  G2 XOR 4067 16978 17861; G2 XOR 4066 16979 17862; G2 XOR 4065 16980 17863; G2 XOR 4064 16981 17864;
  G2 XOR 4063 16982 17865; G2 XOR 4062 16983 17866; G2 XOR 4061 16984 17867; G2 XOR 4060 16985 17868;
  G2 XOR 4059 16986 17869; G2 XOR 4058 16987 17870; G2 XOR 4057 16988 17871; G2 XOR 4056 16989 17872;
  G2 XOR 4055 16990 17873; G2 XOR 4054 16991 17874; G2 XOR 4053 16992 17875; G2 XOR 4052 16993 17876;
  G2 XOR 4051 16994 17877; G2 XOR 4050 16995 17878; G2 XOR 4049 16996 17879; G2 XOR 4048 16997 17880;
  G2 XOR 4047 16998 17881; G2 XOR 4046 16999 17882; G2 XOR 4045 17000 17883; G2 XOR 4044 17001 17884;
  G2 XOR 4043 17002 17885; G2 XOR 4042 17003 17886; G2 XOR 4041 17004 17887; G2 XOR 4040 17005 17888;
  G2 XOR 4039 17006 17889; G2 XOR 18019 17956 4097; G2 XOR 4097 16948 17831; G2 XOR 18266 18203 3976;
  G2 XOR 3976 17006 18078; G2 XOR 18078 18015 4038; G2 XOR 4038 17007 17890; G2 XOR 3976 16632 18142;
  G2 XOR 18142 18015 4917; G2 AND 4917 4916 4915; G2 XOR 4915 18015 18016; G2 XOR 18143 18016 4914;
  G2 XOR 17007 18016 4913; G2 XOR 18079 18016 4037; G2 XOR 4037 17008 17891; G2 AND 4914 4913 4912;
  G2 XOR 4912 18016 18017; G2 XOR 17008 18017 4910; G2 XOR 18144 18017 4911; G2 AND 4911 4910 4909;
  G2 XOR 4909 18017 18018; G2 XOR 18081 18018 191; G2 XOR 18080 18017 4036; G2 XOR 4036 17009 17892;
  G1 INV 191 16631; G2 XOR 16820 16631 17893; G2 XOR 4098 16631 17894; G2 AND 16631 4535 17515;
  G2 XOR 4097 16631 17895; G2 XOR 4096 16631 17896; G2 XOR 4095 16631 17897; G2 XOR 4094 16631 17898;
  G2 XOR 4093 16631 17899; G2 XOR 4092 16631 17900; G2 XOR 4091 16631 17901; G2 XOR 4090 16631 17902;
  G2 XOR 4089 16631 17903; G2 XOR 4088 16631 17904; G2 XOR 4087 16631 17905; G2 XOR 4086 16631 17906;
  G2 XOR 4085 16631 17907; G2 XOR 4084 16631 17908; G2 XOR 4083 16631 17909; G2 XOR 4082 16631 17910;
  G2 XOR 4081 16631 17911; G2 XOR 4080 16631 17912; G2 XOR 4079 16631 17913; G2 XOR 4078 16631 17914;
  G2 XOR 4077 16631 17915; G2 XOR 4076 16631 17916; G2 XOR 4075 16631 17917; G2 XOR 4074 16631 17918;
  G2 XOR 4073 16631 17919; G2 XOR 4072 16631 17920; G2 XOR 4071 16631 17921; G2 XOR 4070 16631 17922;
  G2 XOR 4069 16631 17923; G2 XOR 4068 16631 17924; G2 XOR 4067 16631 17925; G2 XOR 4066 16631 17926;
  G2 XOR 4065 16631 17927; G2 XOR 4064 16631 17928; G2 XOR 4063 16631 17929; G2 XOR 4062 16631 17930;
  G2 XOR 4061 16631 17931; G2 XOR 4060 16631 17932; G2 XOR 4059 16631 17933; G2 XOR 4058 16631 17934;
  G2 XOR 4057 16631 17935; G2 XOR 4056 16631 17936; G2 XOR 4055 16631 17937; G2 XOR 4054 16631 17938;
  G2 XOR 4053 16631 17939; G2 XOR 4052 16631 17940; G2 XOR 4051 16631 17941; G2 XOR 4050 16631 17942;
  G2 XOR 4049 16631 17943; G2 XOR 4048 16631 17944; G2 XOR 4047 16631 17945; G2 XOR 4046 16631 17946;
  G2 XOR 4045 16631 17947; G2 XOR 4044 16631 17948; G2 XOR 4043 16631 17949; G2 XOR 4042 16631 17950;
  G2 XOR 4041 16631 17951; G2 XOR 4040 16631 17952; G2 XOR 4039 16631 17953; G2 XOR 4038 16631 17954;
  G2 XOR 4037 16631 17955; G2 AND 17893 16946 17767; G2 XOR 17830 17767 4160; G2 XOR 16947 17767 4907;
  G2 XOR 17894 17767 4908; G2 AND 4908 4907 4906; G2 XOR 4906 17767 17768; G2 XOR 17831 17768 4159;
  G2 XOR 17895 17768 4905; G2 XOR 16948 17768 4904; G2 AND 4905 4904 4903; G2 XOR 4903 17768 17769;
  G2 XOR 17896 17769 4902; G2 XOR 17832 17769 4158; G2 XOR 16949 17769 4901; G2 AND 4902 4901 4900;
  G2 XOR 4900 17769 17770; G2 XOR 16950 17770 4898; G2 XOR 17897 17770 4899; G2 AND 4899 4898 4897;
  G2 XOR 4897 17770 17771; G2 XOR 17834 17771 4156; G2 XOR 16951 17771 4895; G2 XOR 17898 17771 4896;
  G2 AND 4896 4895 4894; G2 XOR 17833 17770 4157; G2 XOR 4894 17771 17772; G2 XOR 17835 17772 4155;
  G2 XOR 17899 17772 4893; G2 XOR 16952 17772 4892; G2 AND 4893 4892 4891; G2 XOR 4891 17772 17773;
  G2 XOR 17836 17773 4154; G2 XOR 16953 17773 4889; G2 XOR 17900 17773 4890; G2 AND 4890 4889 4888;
  G2 XOR 4888 17773 17774; G2 XOR 17837 17774 4153; G2 XOR 17901 17774 4887; G2 XOR 16954 17774 4886;
  G2 AND 4887 4886 4885; G2 XOR 4885 17774 17775; G2 XOR 17902 17775 4884; G2 XOR 17838 17775 4152;
  G2 XOR 16955 17775 4883; G2 AND 4884 4883 4882; G2 XOR 4882 17775 17776; G2 XOR 16956 17776 4880;
  G2 XOR 17903 17776 4881; G2 AND 4881 4880 4879; G2 XOR 4879 17776 17777; G2 XOR 17840 17777 4150;
  G2 XOR 16957 17777 4877; G2 XOR 17904 17777 4878; G2 AND 4878 4877 4876; G2 XOR 17839 17776 4151;
  G2 XOR 4876 17777 17778; G2 XOR 17841 17778 4149; G2 XOR 17905 17778 4875; G2 XOR 16958 17778 4874;
  G2 AND 4875 4874 4873; G2 XOR 4873 17778 17779; G2 XOR 17842 17779 4148; G2 XOR 16959 17779 4871;
  G2 XOR 17906 17779 4872; G2 AND 4872 4871 4870; G2 XOR 4870 17779 17780; G2 XOR 17843 17780 4147;
  G2 XOR 17907 17780 4869; G2 XOR 16960 17780 4868; G2 AND 4869 4868 4867; G2 XOR 4867 17780 17781;
  G2 XOR 17908 17781 4866; G2 XOR 17844 17781 4146; G2 XOR 16961 17781 4865; G2 AND 4866 4865 4864;
  G2 XOR 4864 17781 17782; G2 XOR 16962 17782 4862; G2 XOR 17909 17782 4863; G2 AND 4863 4862 4861;
  G2 XOR 4861 17782 17783; G2 XOR 17846 17783 4144; G2 XOR 16963 17783 4859; G2 XOR 17910 17783 4860;
  G2 AND 4860 4859 4858; G2 XOR 17845 17782 4145; G2 XOR 4858 17783 17784; G2 XOR 17847 17784 4143;
  G2 XOR 17911 17784 4857; G2 XOR 16964 17784 4856; G2 AND 4857 4856 4855; G2 XOR 4855 17784 17785;
  G2 XOR 17848 17785 4142; G2 XOR 16965 17785 4853; G2 XOR 17912 17785 4854; G2 AND 4854 4853 4852;
  G2 XOR 4852 17785 17786; G2 XOR 17849 17786 4141; G2 XOR 17913 17786 4851; G2 XOR 16966 17786 4850;
  G2 AND 4851 4850 4849; G2 XOR 4849 17786 17787; G2 XOR 17914 17787 4848; G2 XOR 17850 17787 4140;
  G2 XOR 16967 17787 4847; G2 AND 4848 4847 4846; G2 XOR 4846 17787 17788; G2 XOR 16968 17788 4844;
  G2 XOR 17915 17788 4845; G2 AND 4845 4844 4843; G2 XOR 4843 17788 17789; G2 XOR 17852 17789 4138;
  G2 XOR 16969 17789 4841; G2 XOR 17916 17789 4842; G2 AND 4842 4841 4840; G2 XOR 17851 17788 4139;
  G2 XOR 4840 17789 17790; G2 XOR 17853 17790 4137; G2 XOR 17917 17790 4839; G2 XOR 16970 17790 4838;
  G2 AND 4839 4838 4837; G2 XOR 4837 17790 17791; G2 XOR 17854 17791 4136; G2 XOR 16971 17791 4835;
  G2 XOR 17918 17791 4836; G2 AND 4836 4835 4834; G2 XOR 4834 17791 17792; G2 XOR 17855 17792 4135;
  G2 XOR 17919 17792 4833; G2 XOR 16972 17792 4832; G2 AND 4833 4832 4831; G2 XOR 4831 17792 17793;
  G2 XOR 17920 17793 4830; G2 XOR 17856 17793 4134; G2 XOR 16973 17793 4829; G2 AND 4830 4829 4828;
  G2 XOR 4828 17793 17794; G2 XOR 16974 17794 4826; G2 XOR 17921 17794 4827; G2 AND 4827 4826 4825;
  G2 XOR 4825 17794 17795; G2 XOR 17858 17795 4132; G2 XOR 16975 17795 4823; G2 XOR 17922 17795 4824;
  G2 AND 4824 4823 4822; G2 XOR 17857 17794 4133; G2 XOR 4822 17795 17796; G2 XOR 17859 17796 4131;
  G2 XOR 17923 17796 4821; G2 XOR 16976 17796 4820; G2 AND 4821 4820 4819; G2 XOR 4819 17796 17797;
  G2 XOR 17860 17797 4130; G2 XOR 16977 17797 4817; G2 XOR 17924 17797 4818; G2 AND 4818 4817 4816;
  G2 XOR 4816 17797 17798; G2 XOR 17861 17798 4129; G2 XOR 17925 17798 4815; G2 XOR 16978 17798 4814;
  G2 AND 4815 4814 4813; G2 XOR 4813 17798 17799; G2 XOR 17926 17799 4812; G2 XOR 17862 17799 4128;
  G2 XOR 16979 17799 4811; G2 AND 4812 4811 4810; G2 XOR 4810 17799 17800; G2 XOR 16980 17800 4808;
  G2 XOR 17927 17800 4809; G2 AND 4809 4808 4807; G2 XOR 4807 17800 17801; G2 XOR 17864 17801 4126;
  G2 XOR 16981 17801 4805; G2 XOR 17928 17801 4806; G2 AND 4806 4805 4804; G2 XOR 17863 17800 4127;
  G2 XOR 4804 17801 17802; G2 XOR 17865 17802 4125; G2 XOR 17929 17802 4803; G2 XOR 16982 17802 4802;
  G2 AND 4803 4802 4801; G2 XOR 4801 17802 17803; G2 XOR 17866 17803 4124; G2 XOR 16983 17803 4799;
  G2 XOR 17930 17803 4800; G2 AND 4800 4799 4798; G2 XOR 4798 17803 17804; G2 XOR 17867 17804 4123;
  G2 XOR 17931 17804 4797; G2 XOR 16984 17804 4796; G2 AND 4797 4796 4795; G2 XOR 4795 17804 17805;
  G2 XOR 17932 17805 4794; G2 XOR 17868 17805 4122; G2 XOR 16985 17805 4793; G2 AND 4794 4793 4792;
  G2 XOR 4792 17805 17806; G2 XOR 16986 17806 4790; G2 XOR 17933 17806 4791; G2 AND 4791 4790 4789;
  G2 XOR 4789 17806 17807; G2 XOR 17870 17807 4120; G2 XOR 16987 17807 4787; G2 XOR 17934 17807 4788;
  G2 AND 4788 4787 4786; G2 XOR 17869 17806 4121; G2 XOR 4786 17807 17808; G2 XOR 17871 17808 4119;
  G2 XOR 17935 17808 4785; G2 XOR 16988 17808 4784; G2 AND 4785 4784 4783; G2 XOR 4783 17808 17809;
  G2 XOR 17872 17809 4118; G2 XOR 16989 17809 4781; G2 XOR 17936 17809 4782; G2 AND 4782 4781 4780;
  G2 XOR 4780 17809 17810; G2 XOR 17873 17810 4117; G2 XOR 17937 17810 4779; G2 XOR 16990 17810 4778;
  G2 AND 4779 4778 4777; G2 XOR 4777 17810 17811; G2 XOR 17938 17811 4776; G2 XOR 17874 17811 4116;
  G2 XOR 16991 17811 4775; G2 AND 4776 4775 4774; G2 XOR 4774 17811 17812; G2 XOR 16992 17812 4772;
  G2 XOR 17939 17812 4773; G2 AND 4773 4772 4771; G2 XOR 4771 17812 17813; G2 XOR 17876 17813 4114;
  G2 XOR 16993 17813 4769; G2 XOR 17940 17813 4770; G2 AND 4770 4769 4768; G2 XOR 17875 17812 4115;
  G2 XOR 4768 17813 17814; G2 XOR 17877 17814 4113; G2 XOR 17941 17814 4767; G2 XOR 16994 17814 4766;
  G2 AND 4767 4766 4765; G2 XOR 4765 17814 17815; G2 XOR 17878 17815 4112; G2 XOR 16995 17815 4763;
  G2 XOR 17942 17815 4764; G2 AND 4764 4763 4762; G2 XOR 4762 17815 17816; G2 XOR 17879 17816 4111;
  G2 XOR 17943 17816 4761; G2 XOR 16996 17816 4760; G2 AND 4761 4760 4759; G2 XOR 4759 17816 17817;
  G2 XOR 17944 17817 4758; G2 XOR 17880 17817 4110; G2 XOR 16997 17817 4757; G2 AND 4758 4757 4756;
  G2 XOR 4756 17817 17818; G2 XOR 16998 17818 4754; G2 XOR 17945 17818 4755; G2 AND 4755 4754 4753;
  G2 XOR 4753 17818 17819; G2 XOR 17882 17819 4108; G2 XOR 16999 17819 4751; G2 XOR 17946 17819 4752;
  G2 AND 4752 4751 4750; G2 XOR 17881 17818 4109; G2 XOR 4750 17819 17820; G2 XOR 17883 17820 4107;
  G2 XOR 17947 17820 4749; G2 XOR 17000 17820 4748; G2 AND 4749 4748 4747; G2 XOR 4747 17820 17821;
  G2 XOR 17884 17821 4106; G2 XOR 17001 17821 4745; G2 XOR 17948 17821 4746; G2 AND 4746 4745 4744;
  G2 XOR 4744 17821 17822; G2 XOR 17002 17822 4742; G2 XOR 17885 17822 4105; G2 XOR 17949 17822 4743;
  G2 AND 4743 4742 4741; G2 XOR 4741 17822 17823; G2 XOR 17950 17823 4740; G2 XOR 17886 17823 4104;
  G2 XOR 17003 17823 4739; G2 AND 4740 4739 4738; G2 XOR 4738 17823 17824; G2 XOR 17887 17824 4103;
  G2 XOR 17004 17824 4736; G2 XOR 17951 17824 4737; G2 AND 4737 4736 4735; G2 XOR 4735 17824 17825;
  G2 XOR 17888 17825 4102; G2 XOR 17005 17825 4733; G2 XOR 17952 17825 4734; G2 AND 4734 4733 4732;
  G2 XOR 4732 17825 17826; G2 XOR 17889 17826 4101; G2 XOR 17953 17826 4731; G2 XOR 17006 17826 4730;
  G2 AND 4731 4730 4729; G2 XOR 4729 17826 17827; G2 XOR 17954 17827 4728; G2 XOR 17890 17827 4100;
  G2 XOR 17007 17827 4727; G2 AND 4728 4727 4726; G2 XOR 4726 17827 17828; G2 XOR 17008 17828 4724;
  G2 XOR 17891 17828 4099; G2 XOR 4099 17009 4722; G2 XOR 17955 17828 4725; G2 AND 4725 4724 4723;
  G2 XOR 4723 17828 17829; G2 XOR 17892 17829 192; G1 INV 192 16630; G2 AND 16630 4535 17514;
  G2 XOR 4160 16630 17706; G2 XOR 4159 16630 17707; G2 XOR 16819 16630 17704; G2 XOR 4155 16630 17711;
  G2 XOR 4156 16630 17710; G2 XOR 4158 16630 17708; G2 XOR 4151 16630 17715; G2 XOR 4139 16630 17727;
  G2 XOR 4143 16630 17723; G2 XOR 4147 16630 17719; G2 XOR 4148 16630 17718; G2 XOR 4135 16630 17731;
  G2 XOR 4136 16630 17730; G2 XOR 4144 16630 17722; G2 XOR 4140 16630 17726; G2 XOR 4142 16630 17724;
  G2 XOR 4138 16630 17728; G2 XOR 4132 16630 17734; G2 XOR 4134 16630 17732; G2 XOR 4131 16630 17735;
  G2 XOR 4127 16630 17739; G2 XOR 4130 16630 17736; G2 XOR 4128 16630 17738; G2 XOR 4120 16630 17746;
  G2 XOR 4123 16630 17743; G2 XOR 4126 16630 17740; G2 XOR 4124 16630 17742; G2 XOR 4116 16630 17750;
  G2 XOR 4114 16630 17752; G2 XOR 4118 16630 17748; G2 XOR 4122 16630 17744; G2 XOR 4112 16630 17754;
  G2 XOR 4110 16630 17756; G2 XOR 4107 16630 17759; G2 XOR 4103 16630 17763; G2 XOR 4104 16630 17762;
  G2 AND 17704 16946 17641; G2 XOR 16947 17641 4720; G2 XOR 4106 16630 17760; G2 XOR 4100 16630 17766;
  G2 XOR 4102 16630 17764; G2 XOR 4152 16630 17714; G2 XOR 4154 16630 17712; G2 XOR 4150 16630 17716;
  G2 XOR 4146 16630 17720; G2 XOR 4119 16630 17747; G2 XOR 4115 16630 17751; G2 XOR 4111 16630 17755;
  G2 XOR 4108 16630 17758; G2 XOR 4101 16630 17765; G2 XOR 4105 16630 17761; G2 XOR 4109 16630 17757;
  G2 XOR 4113 16630 17753; G2 XOR 4117 16630 17749; G2 XOR 4121 16630 17745; G2 XOR 4125 16630 17741;
  G2 XOR 4129 16630 17737; G2 XOR 4133 16630 17733; G2 XOR 4137 16630 17729; G2 XOR 4141 16630 17725;
  G2 XOR 4145 16630 17721; G2 XOR 4149 16630 17717; G2 XOR 4153 16630 17713; G2 XOR 4157 16630 17709;
  G2 XOR 4161 16630 17705; G2 XOR 17705 17641 4721; G2 AND 4721 4720 4719; G2 XOR 4719 17641 17642;
  G2 XOR 17706 17642 4718; G2 XOR 16948 17642 4717; G2 AND 4718 4717 4716; G2 XOR 4716 17642 17643;
  G2 XOR 17707 17643 4715; G2 XOR 16949 17643 4714; G2 AND 4715 4714 4713; G2 XOR 4713 17643 17644;
  G2 XOR 16950 17644 4711; G2 XOR 17708 17644 4712; G2 AND 4712 4711 4710; G2 XOR 4710 17644 17645;
  G2 XOR 16951 17645 4708; G2 XOR 17709 17645 4709; G2 AND 4709 4708 4707; G2 XOR 4707 17645 17646;
  G2 XOR 17710 17646 4706; G2 XOR 16952 17646 4705; G2 AND 4706 4705 4704; G2 XOR 4704 17646 17647;
  G2 XOR 16953 17647 4702; G2 XOR 17711 17647 4703; G2 AND 4703 4702 4701; G2 XOR 4701 17647 17648;
  G2 XOR 16954 17648 4699; G2 XOR 17712 17648 4700; G2 AND 4700 4699 4698; G2 XOR 4698 17648 17649;
  G2 XOR 16955 17649 4696; G2 XOR 17713 17649 4697; G2 AND 4697 4696 4695; G2 XOR 4695 17649 17650;
  G2 XOR 17714 17650 4694; G2 XOR 16956 17650 4693; G2 AND 4694 4693 4692; G2 XOR 4692 17650 17651;
  G2 XOR 16957 17651 4690; G2 XOR 17715 17651 4691; G2 AND 4691 4690 4689; G2 XOR 4689 17651 17652;
  G2 XOR 16958 17652 4687; G2 XOR 17716 17652 4688; G2 AND 4688 4687 4686; G2 XOR 4686 17652 17653;
  G2 XOR 17717 17653 4685; G2 XOR 16959 17653 4684; G2 AND 4685 4684 4683; G2 XOR 4683 17653 17654;
  G2 XOR 17718 17654 4682; G2 XOR 16960 17654 4681; G2 AND 4682 4681 4680; G2 XOR 4680 17654 17655;
  G2 XOR 16961 17655 4678; G2 XOR 17719 17655 4679; G2 AND 4679 4678 4677; G2 XOR 4677 17655 17656;
  G2 XOR 17720 17656 4676; G2 XOR 16962 17656 4675; G2 AND 4676 4675 4674; G2 XOR 4674 17656 17657;
  G2 XOR 17721 17657 4673; G2 XOR 16963 17657 4672; G2 AND 4673 4672 4671; G2 XOR 4671 17657 17658;
  G2 XOR 16964 17658 4669; G2 XOR 17722 17658 4670; G2 AND 4670 4669 4668; G2 XOR 4668 17658 17659;
  G2 XOR 16965 17659 4666; G2 XOR 17723 17659 4667; G2 AND 4667 4666 4665; G2 XOR 4665 17659 17660;
  G2 XOR 16966 17660 4663; G2 XOR 17724 17660 4664; G2 AND 4664 4663 4662; G2 XOR 4662 17660 17661;
  G2 XOR 17725 17661 4661; G2 XOR 16967 17661 4660; G2 AND 4661 4660 4659; G2 XOR 4659 17661 17662;
  G2 XOR 17726 17662 4658; G2 XOR 16968 17662 4657; G2 AND 4658 4657 4656; G2 XOR 4656 17662 17663;
  G2 XOR 17727 17663 4655; G2 XOR 16969 17663 4654; G2 AND 4655 4654 4653; G2 XOR 4653 17663 17664;
  G2 XOR 16970 17664 4651; G2 XOR 17728 17664 4652; G2 AND 4652 4651 4650; G2 XOR 4650 17664 17665;
  G2 XOR 17729 17665 4649; G2 XOR 16971 17665 4648; G2 AND 4649 4648 4647; G2 XOR 4647 17665 17666;
  G2 XOR 17730 17666 4646; G2 XOR 16972 17666 4645; G2 AND 4646 4645 4644; G2 XOR 4644 17666 17667;
  G2 XOR 16973 17667 4642; G2 XOR 17731 17667 4643; G2 AND 4643 4642 4641; G2 XOR 4641 17667 17668;
  G2 XOR 17732 17668 4640; G2 XOR 16974 17668 4639; G2 AND 4640 4639 4638; G2 XOR 4638 17668 17669;
  G2 XOR 16975 17669 4636; G2 XOR 17733 17669 4637; G2 AND 4637 4636 4635; G2 XOR 4635 17669 17670;
  G2 XOR 17734 17670 4634; G2 XOR 16976 17670 4633; G2 AND 4634 4633 4632; G2 XOR 4632 17670 17671;
  G2 XOR 17735 17671 4631; G2 AND 16691 4535 17575; G2 AND 16689 4535 17573; G2 AND 16687 4535 17571;
  G2 AND 16685 4535 17569; G2 AND 16683 4535 17567; G2 AND 16681 4535 17565; G2 AND 16679 4535 17563;
  G2 AND 16677 4535 17561; G2 AND 16675 4535 17559; G2 AND 16673 4535 17557; G2 AND 16671 4535 17555;
  G2 AND 16669 4535 17553; G2 AND 16667 4535 17551; G2 AND 16665 4535 17549; G2 AND 16663 4535 17547;
  G2 XOR 16977 17671 4630; G2 AND 4631 4630 4629; G2 XOR 4629 17671 17672; G2 XOR 16978 17672 4627;
  G2 XOR 17736 17672 4628; G2 AND 4628 4627 4626; G2 XOR 4626 17672 17673; G2 XOR 16979 17673 4624;
  G2 XOR 17737 17673 4625; G2 AND 4625 4624 4623; G2 XOR 4623 17673 17674; G2 XOR 17738 17674 4622;
  G2 XOR 16980 17674 4621; G2 AND 4622 4621 4620; G2 XOR 4620 17674 17675; G2 XOR 16981 17675 4618;
  G2 XOR 17739 17675 4619; G2 AND 4619 4618 4617; G2 XOR 4617 17675 17676; G2 XOR 17740 17676 4616;
  G2 XOR 16982 17676 4615; G2 AND 4616 4615 4614; G2 XOR 4614 17676 17677; G2 XOR 17741 17677 4613;
  G2 XOR 16983 17677 4612; G2 AND 4613 4612 4611; G2 XOR 4611 17677 17678; G2 XOR 17742 17678 4610;
  G2 XOR 16984 17678 4609; G2 AND 4610 4609 4608; G2 XOR 4608 17678 17679; G2 XOR 17743 17679 4607;
  G2 XOR 16985 17679 4606; G2 AND 4607 4606 4605; G2 XOR 4605 17679 17680; G2 XOR 17744 17680 4604;
  G2 XOR 16986 17680 4603; G2 AND 4604 4603 4602; G2 XOR 4602 17680 17681; G2 XOR 17745 17681 4601;
  G2 XOR 16987 17681 4600; G2 AND 4601 4600 4599; G2 XOR 4599 17681 17682; G2 XOR 16988 17682 4597;
  G2 XOR 17746 17682 4598; G2 AND 4598 4597 4596; G2 XOR 4596 17682 17683; G2 XOR 16989 17683 4594;
  G2 XOR 17747 17683 4595; G2 AND 4595 4594 4593; G2 XOR 4593 17683 17684; G2 XOR 17748 17684 4592;
  G2 XOR 16990 17684 4591; G2 AND 4592 4591 4590; G2 XOR 4590 17684 17685; G2 XOR 17749 17685 4589;
  G2 XOR 16991 17685 4588; G2 AND 4589 4588 4587; G2 XOR 4587 17685 17686; G2 XOR 16992 17686 4585;
  G2 XOR 17750 17686 4586; G2 AND 4586 4585 4584; G2 XOR 4584 17686 17687; G2 XOR 16993 17687 4582;
  G2 XOR 17751 17687 4583; G2 AND 4583 4582 4581; G2 XOR 4581 17687 17688; G2 XOR 17752 17688 4580;
  G2 XOR 16994 17688 4579; G2 AND 4580 4579 4578; G2 XOR 4578 17688 17689; G2 XOR 16995 17689 4576;
  G2 XOR 17753 17689 4577; G2 AND 4577 4576 4575; G2 XOR 4575 17689 17690; G2 XOR 16996 17690 4573;
  G2 XOR 17754 17690 4574; G2 AND 4574 4573 4572; G2 XOR 4572 17690 17691; G2 XOR 16997 17691 4570;
  G2 XOR 17755 17691 4571; G2 AND 4571 4570 4569; G2 XOR 4569 17691 17692; G2 XOR 17756 17692 4568;
  G2 XOR 16998 17692 4567; G2 AND 4568 4567 4566; G2 XOR 4566 17692 17693; G2 XOR 16999 17693 4564;
  G2 XOR 17757 17693 4565; G2 AND 4565 4564 4563; G2 XOR 4563 17693 17694; G2 XOR 17000 17694 4561;
  G2 XOR 17758 17694 4562; G2 AND 4562 4561 4560; G2 XOR 4560 17694 17695; G2 XOR 17759 17695 4559;
  G2 XOR 17001 17695 4558; G2 AND 4559 4558 4557; G2 XOR 4557 17695 17696; G2 XOR 17002 17696 4555;
  G2 XOR 17760 17696 4556; G2 AND 4556 4555 4554; G2 XOR 4554 17696 17697; G2 XOR 17761 17697 4553;
  G2 XOR 17003 17697 4552; G2 AND 4553 4552 4551; G2 XOR 4551 17697 17698; G2 XOR 17762 17698 4550;
  G2 XOR 17004 17698 4549; G2 AND 4550 4549 4548; G2 XOR 4548 17698 17699; G2 XOR 17763 17699 4547;
  G2 XOR 17005 17699 4546; G2 AND 4547 4546 4545; G2 XOR 4545 17699 17700; G2 XOR 17764 17700 4544;
  G2 XOR 17006 17700 4543; G2 AND 4544 4543 4542; G2 XOR 4542 17700 17701; G2 XOR 17007 17701 4540;
  G2 XOR 17765 17701 4541; G2 AND 4541 4540 4539; G2 XOR 4539 17701 17702; G2 XOR 17766 17702 4538;
  G2 XOR 17008 17702 4537; G2 AND 4538 4537 4536; G2 XOR 4536 17702 17703; G2 XOR 4722 17703 4162;
  G2 XOR 192 4162 4534; G2 AND 4534 4162 4533; G2 XOR 4533 4162 17388; G2 XOR 16631 17388 17451;
  G1 INV 4162 16566; G2 AND 16566 128 17577; G1 INV 17451 16567; G2 AND 16566 4535 17513;
  G2 XOR 17577 17513 29990; G2 XOR 16630 4162 17450; G1 INV 17450 16629; G2 AND 16629 128 17578;
  G2 XOR 17578 17514 29991; G2 XOR 191 17388 4532; G2 AND 4532 17388 4531; G2 XOR 4531 17388 17389;
  G2 XOR 190 17389 4530; G2 XOR 16632 17389 17452; G2 AND 4530 17389 4529; G2 XOR 4529 17389 17390;
  G2 XOR 16633 17390 17453; G2 XOR 189 17390 4528; G1 INV 17452 16568; G2 AND 16568 128 17580;
  G1 INV 17453 16569; G2 AND 16569 128 17581; G2 XOR 17581 17517 29994; G2 XOR 17580 17516 29993;
  G2 AND 4528 17390 4527; G2 XOR 4527 17390 17391; G2 XOR 188 17391 4526; G2 AND 4526 17391 4525;
  G2 XOR 4525 17391 17392; G2 XOR 16634 17391 17454; G2 XOR 187 17392 4524; G2 AND 4524 17392 4523;
  G1 INV 17454 16570; G2 AND 16570 128 17582; G2 XOR 16635 17392 17455; G1 INV 17455 16571;
  G2 XOR 4523 17392 17393; G2 XOR 16636 17393 17456; G1 INV 17456 16572; G2 AND 16572 128 17584;
  G2 XOR 17584 17520 29997; G2 XOR 186 17393 4522; G2 AND 4522 17393 4521; G2 XOR 4521 17393 17394;
  G2 XOR 185 17394 4520; G2 AND 4520 17394 4519; G2 XOR 4519 17394 17395; G2 XOR 184 17395 4518;
  G2 XOR 16638 17395 17458; G2 XOR 16637 17394 17457; G1 INV 17457 16573; G1 INV 17458 16574;
  G2 AND 16573 128 17585; G2 AND 4518 17395 4517; G2 XOR 4517 17395 17396; G2 XOR 16639 17396 17459;
  G2 XOR 183 17396 4516; G2 AND 4516 17396 4515; G2 XOR 4515 17396 17397; G2 XOR 16640 17397 17460;
  G2 XOR 182 17397 4514; G1 INV 17459 16575; G2 AND 16575 128 17587; G2 XOR 17587 17523 30000;
  G1 INV 17460 16576; G2 AND 4514 17397 4513; G2 XOR 4513 17397 17398; G2 XOR 181 17398 4512;
  G2 XOR 16641 17398 17461; G2 AND 4512 17398 4511; G2 XOR 4511 17398 17399; G2 XOR 180 17399 4510;
  G2 AND 4510 17399 4509; G1 INV 17461 16577; G2 XOR 16642 17399 17462; G1 INV 17462 16578;
  G2 XOR 17585 17521 29998; G2 AND 16578 128 17590; G2 XOR 17590 17526 30003; G2 XOR 17582 17518 29995;
  G2 AND 16576 128 17588; G2 XOR 17588 17524 30001; G2 AND 16577 128 17589; G2 XOR 17589 17525 30002;
  G2 AND 16571 128 17583; G2 XOR 17583 17519 29996; G2 AND 16574 128 17586; G2 AND 16567 128 17579;
  G2 XOR 17579 17515 29992; G2 XOR 17586 17522 29999; G2 XOR 4509 17399 17400; G2 XOR 16643 17400 17463;
  G1 INV 17463 16579; G2 AND 16579 128 17591; G2 XOR 17591 17527 30004; G2 XOR 179 17400 4508;
  G2 AND 4508 17400 4507; G2 XOR 4507 17400 17401; G2 XOR 16644 17401 17464; G2 XOR 178 17401 4506;
  G2 AND 4506 17401 4505; G2 XOR 4505 17401 17402; G2 XOR 16645 17402 17465; G1 INV 17464 16580;
  G1 INV 17465 16581; G2 AND 16580 128 17592; G2 XOR 177 17402 4504; G2 XOR 17592 17528 30005;
  G2 AND 4504 17402 4503; G2 AND 16581 128 17593; G2 XOR 17593 17529 30006; G2 XOR 4503 17402 17403;
  G2 XOR 176 17403 4502; G2 AND 4502 17403 4501; G2 XOR 4501 17403 17404; G2 XOR 175 17404 4500;
  G2 XOR 16646 17403 17466; G1 INV 17466 16582; G2 AND 16582 128 17594; G2 XOR 17594 17530 30007;
  G2 AND 4500 17404 4499; G2 XOR 4499 17404 17405; G2 XOR 16648 17405 17468; G1 INV 17468 16584;
  G2 AND 16584 128 17596; G2 XOR 174 17405 4498; G2 AND 4498 17405 4497; G2 XOR 4497 17405 17406;
  G2 XOR 173 17406 4496; G2 AND 4496 17406 4495; G2 XOR 16649 17406 17469; G1 INV 17469 16585;
  G2 AND 16585 128 17597; G2 XOR 17597 17533 30010; G2 XOR 4495 17406 17407; G2 XOR 16650 17407 17470;
  G2 XOR 172 17407 4494; G2 AND 4494 17407 4493; G2 XOR 4493 17407 17408; G2 XOR 16651 17408 17471;
  G1 INV 17470 16586; G1 INV 17471 16587; G2 AND 16587 128 17599; G2 XOR 171 17408 4492;
  G2 AND 4492 17408 4491; G2 XOR 4491 17408 17409; G2 XOR 16652 17409 17472; G1 INV 17472 16588;
  G2 XOR 170 17409 4490; G2 AND 4490 17409 4489; G2 XOR 4489 17409 17410; G2 XOR 16653 17410 17473;
  G2 XOR 169 17410 4488; G2 AND 4488 17410 4487; G2 XOR 4487 17410 17411; G2 XOR 168 17411 4486;
  G1 INV 17473 16589; G2 AND 16589 128 17601; G2 XOR 17601 17537 30014; G2 AND 16588 128 17600;
  G2 XOR 17599 17535 30012; G2 XOR 16654 17411 17474; G1 INV 17474 16590; G2 AND 16590 128 17602;
  G2 XOR 17602 17538 30015; G2 XOR 16647 17404 17467; G1 INV 17467 16583; G2 AND 16583 128 17595;
  G2 XOR 17595 17531 30008; G2 AND 4486 17411 4485; G2 XOR 4485 17411 17412; G2 XOR 167 17412 4484;
  G2 AND 4484 17412 4483; G2 XOR 4483 17412 17413; G2 XOR 16656 17413 17476; G1 INV 17476 16592;
  G2 XOR 16655 17412 17475; G1 INV 17475 16591; G2 AND 16591 128 17603; G2 XOR 166 17413 4482;
  G2 AND 4482 17413 4481; G2 XOR 4481 17413 17414; G2 XOR 16657 17414 17477; G1 INV 17477 16593;
  G2 AND 16593 128 17605; G2 XOR 165 17414 4480; G2 AND 4480 17414 4479; G2 XOR 4479 17414 17415;
  G2 XOR 164 17415 4478; G2 AND 4478 17415 4477; G2 XOR 4477 17415 17416; G2 XOR 16659 17416 17479;
  G1 INV 17479 16595; G2 XOR 17605 17541 30018; G2 XOR 163 17416 4476; G2 AND 4476 17416 4475;
  G2 XOR 4475 17416 17417; G2 XOR 16660 17417 17480; G1 INV 17480 16596; G2 AND 16596 128 17608;
  G2 XOR 17608 17544 30021; G2 XOR 162 17417 4474; G2 AND 16595 128 17607; G2 AND 16592 128 17604;
  G2 XOR 17604 17540 30017; G2 AND 4474 17417 4473; G2 XOR 4473 17417 17418; G2 XOR 161 17418 4472;
  G2 AND 4472 17418 4471; G2 XOR 4471 17418 17419; G2 XOR 160 17419 4470; G2 XOR 16662 17419 17482;
  G1 INV 17482 16598; G2 AND 16598 128 17610; G2 AND 4470 17419 4469; G2 XOR 4469 17419 17420;
  G2 XOR 159 17420 4468; G2 AND 4468 17420 4467; G2 XOR 16663 17420 17483; G1 INV 17483 16599;
  G2 AND 16599 128 17611; G2 XOR 17611 17547 30024; G2 XOR 4467 17420 17421; G2 XOR 16664 17421 17484;
  G1 INV 17484 16600; G2 XOR 158 17421 4466; G2 AND 4466 17421 4465; G2 AND 16600 128 17612;
  G2 XOR 17612 17548 30025; G2 XOR 4465 17421 17422; G2 XOR 157 17422 4464; G2 AND 4464 17422 4463;
  G2 XOR 4463 17422 17423; G2 XOR 16666 17423 17486; G1 INV 17486 16602; G2 AND 16602 128 17614;
  G2 XOR 16665 17422 17485; G1 INV 17485 16601; G2 AND 16601 128 17613; G2 XOR 17613 17549 30026;
  G2 XOR 156 17423 4462; G2 AND 4462 17423 4461; G2 XOR 4461 17423 17424; G2 XOR 16667 17424 17487;
  G1 INV 17487 16603; G2 AND 16603 128 17615; G2 XOR 17615 17551 30028; G2 XOR 155 17424 4460;
  G2 AND 4460 17424 4459; G2 XOR 4459 17424 17425; G2 XOR 154 17425 4458; G2 AND 4458 17425 4457;
  G2 XOR 4457 17425 17426; G2 XOR 16669 17426 17489; G1 INV 17489 16605; G2 AND 16605 128 17617;
  G2 XOR 16668 17425 17488; G1 INV 17488 16604; G2 AND 16604 128 17616; G2 XOR 17616 17552 30029;
  G2 XOR 153 17426 4456; G2 XOR 16661 17418 17481; G1 INV 17481 16597; G2 AND 16597 128 17609;
  G2 XOR 17609 17545 30022; G2 AND 4456 17426 4455; G2 XOR 4455 17426 17427; G2 XOR 16670 17427 17490;
  G1 INV 17490 16606; G2 AND 16606 128 17618; G2 XOR 17618 17554 30031; G2 XOR 152 17427 4454;
  G2 AND 4454 17427 4453; G2 XOR 4453 17427 17428; G2 XOR 151 17428 4452; G2 XOR 16671 17428 17491;
  G1 INV 17491 16607; G2 AND 16607 128 17619; G2 XOR 17619 17555 30032; G2 AND 4452 17428 4451;
  G2 XOR 4451 17428 17429; G2 XOR 150 17429 4450; G2 AND 4450 17429 4449; G2 XOR 4449 17429 17430;
  G2 XOR 149 17430 4448; G2 AND 4448 17430 4447; G2 XOR 4447 17430 17431; G2 XOR 16674 17431 17494;
  G1 INV 17494 16610; G2 AND 16610 128 17622; G2 XOR 16673 17430 17493; G1 INV 17493 16609;
  G2 AND 16609 128 17621; G2 XOR 17622 17558 30035; G2 XOR 148 17431 4446; G2 AND 4446 17431 4445;
  G2 XOR 4445 17431 17432; G2 XOR 16675 17432 17495; G1 INV 17495 16611; G2 XOR 147 17432 4444;
  G2 AND 4444 17432 4443; G2 XOR 4443 17432 17433; G2 XOR 146 17433 4442; G2 AND 4442 17433 4441;
  G2 XOR 4441 17433 17434; G2 XOR 145 17434 4440; G2 AND 4440 17434 4439; G2 XOR 16677 17434 17497;
  G2 XOR 4439 17434 17435; G2 XOR 16678 17435 17498; G1 INV 17498 16614; G2 AND 16614 128 17626;
  G2 XOR 17626 17562 30039; G1 INV 17497 16613; G2 AND 16613 128 17625; G2 XOR 17625 17561 30038;
  G2 XOR 16676 17433 17496; G1 INV 17496 16612; G2 AND 16612 128 17624; G2 XOR 144 17435 4438;
  G2 AND 4438 17435 4437; G2 XOR 4437 17435 17436; G2 XOR 143 17436 4436; G2 AND 4436 17436 4435;
  G2 XOR 4435 17436 17437; G2 XOR 142 17437 4434; G2 AND 4434 17437 4433; G2 XOR 16680 17437 17500;
  G1 INV 17500 16616; G2 AND 16616 128 17628; G2 XOR 16679 17436 17499; G2 XOR 4433 17437 17438;
  G2 XOR 16681 17438 17501; G1 INV 17501 16617; G2 AND 16617 128 17629; G2 XOR 141 17438 4432;
  G2 AND 4432 17438 4431; G2 XOR 17629 17565 30042; G2 AND 16611 128 17623; G2 XOR 17623 17559 30036;
  G2 XOR 4431 17438 17439; G2 XOR 16682 17439 17502; G1 INV 17502 16618; G2 AND 16618 128 17630;
  G2 XOR 140 17439 4430; G2 XOR 17630 17566 30043; G1 INV 17499 16615; G2 AND 16615 128 17627;
  G2 XOR 17627 17563 30040; G2 XOR 17600 17536 30013; G2 XOR 17607 17543 30020; G2 XOR 17614 17550 30027;
  G2 XOR 17621 17557 30034; G2 XOR 17628 17564 30041; G2 XOR 17596 17532 30009; G2 XOR 17603 17539 30016;
  G2 XOR 17610 17546 30023; G2 XOR 17617 17553 30030; G2 XOR 17624 17560 30037; G2 AND 4430 17439 4429;
  G2 XOR 4429 17439 17440; G2 XOR 139 17440 4428; G2 XOR 16683 17440 17503; G1 INV 17503 16619;
  G2 AND 16619 128 17631; G2 AND 4428 17440 4427; G2 XOR 4427 17440 17441; G2 XOR 138 17441 4426;
  G2 AND 4426 17441 4425; G2 XOR 16684 17441 17504; G1 INV 17504 16620; G2 AND 16620 128 17632;
  G2 XOR 17632 17568 30045; G2 XOR 17631 17567 30044; G2 XOR 4425 17441 17442; G2 XOR 137 17442 4424;
  G2 XOR 16685 17442 17505; G2 AND 4424 17442 4423; G1 INV 17505 16621; G2 AND 16621 128 17633;
  G2 XOR 17633 17569 30046; G2 XOR 4423 17442 17443; G2 XOR 136 17443 4422; G2 AND 4422 17443 4421;
  G2 XOR 4421 17443 17444; G2 XOR 16687 17444 17507; G1 INV 17507 16623; G2 AND 16623 128 17635;
  G2 XOR 17635 17571 30048; G2 XOR 135 17444 4420; G2 AND 4420 17444 4419; G2 XOR 4419 17444 17445;
  G2 XOR 16688 17445 17508; G1 INV 17508 16624; G2 XOR 134 17445 4418; G2 AND 4418 17445 4417;
  G2 XOR 4417 17445 17446; G2 XOR 133 17446 4416; G2 AND 16624 128 17636; G2 XOR 16689 17446 17509;
  G1 INV 17509 16625; G2 AND 16625 128 17637; G2 XOR 17637 17573 30050; G2 XOR 17636 17572 30049;
  G2 AND 4416 17446 4415; G2 XOR 4415 17446 17447; G2 XOR 16690 17447 17510; G1 INV 17510 16626;
  G2 AND 16626 128 17638; G2 XOR 17638 17574 30051; G2 XOR 132 17447 4414; G2 AND 4414 17447 4413;
  G2 XOR 4413 17447 17448; G2 XOR 131 17448 4412; G2 AND 4412 17448 4411; G2 XOR 4411 17448 17449;
  G2 XOR 16692 17449 17512; G1 INV 17512 16628; G2 AND 16628 128 17640; G2 XOR 17640 17576 30053;
  G2 XOR 16691 17448 17511; G1 INV 17511 16627; G2 AND 16627 128 17639; G2 XOR 17639 17575 30052;
  G2 XOR 16686 17443 17506; G1 INV 17506 16622; G2 AND 16622 128 17634; G2 XOR 17634 17570 30047;
  G2 XOR 16672 17429 17492; G1 INV 17492 16608; G2 AND 16608 128 17620; G2 XOR 17620 17556 30033;
  G2 XOR 16658 17415 17478; G1 INV 17478 16594; G2 AND 16594 128 17606; G2 XOR 17606 17542 30019;
  G2 AND 16586 128 17598; G2 XOR 17598 17534 30011].
Definition divide64 : circuit := mkCircuit 29926 30054 [64; 64] [64] divide64_gates.

(** The negated dividend and its carries. *)
Definition sdiv_na : list N := [
  0; 16756; 16757; 16758; 16759; 16760; 16761; 16762; 16763; 16764; 16765; 16766; 16767; 16768; 16769; 16770;
  16771; 16772; 16773; 16774; 16775; 16776; 16777; 16778; 16779; 16780; 16781; 16782; 16783; 16784; 16785;
  16786; 16787; 16788; 16789; 16790; 16791; 16792; 16793; 16794; 16795; 16796; 16797; 16798; 16799; 16800;
  16801; 16802; 16803; 16804; 16805; 16806; 16807; 16808; 16809; 16810; 16811; 16812; 16813; 16814; 16815;
  16816; 16817; 16818].
Definition sdiv_ca : list N := [
  17135; 17010; 17011; 17012; 17013; 17014; 17015; 17016; 17017; 17018; 17019; 17020; 17021; 17022; 17023;
  17024; 17025; 17026; 17027; 17028; 17029; 17030; 17031; 17032; 17033; 17034; 17035; 17036; 17037; 17038;
  17039; 17040; 17041; 17042; 17043; 17044; 17045; 17046; 17047; 17048; 17049; 17050; 17051; 17052; 17053;
  17054; 17055; 17056; 17057; 17058; 17059; 17060; 17061; 17062; 17063; 17064; 17065; 17066; 17067; 17068;
  17069; 17070; 17071].
(** The negated divisor and its carries. *)
Definition sdiv_nb : list N := [
  64; 16883; 16884; 16885; 16886; 16887; 16888; 16889; 16890; 16891; 16892; 16893; 16894; 16895; 16896;
  16897; 16898; 16899; 16900; 16901; 16902; 16903; 16904; 16905; 16906; 16907; 16908; 16909; 16910; 16911;
  16912; 16913; 16914; 16915; 16916; 16917; 16918; 16919; 16920; 16921; 16922; 16923; 16924; 16925; 16926;
  16927; 16928; 16929; 16930; 16931; 16932; 16933; 16934; 16935; 16936; 16937; 16938; 16939; 16940; 16941;
  16942; 16943; 16944; 16945].
Definition sdiv_cb : list N := [
  29738; 29613; 29614; 29615; 29616; 29617; 29618; 29619; 29620; 29621; 29622; 29623; 29624; 29625; 29626;
  29627; 29628; 29629; 29630; 29631; 29632; 29633; 29634; 29635; 29636; 29637; 29638; 29639; 29640; 29641;
  29642; 29643; 29644; 29645; 29646; 29647; 29648; 29649; 29650; 29651; 29652; 29653; 29654; 29655; 29656;
  29657; 29658; 29659; 29660; 29661; 29662; 29663; 29664; 29665; 29666; 29667; 29668; 29669; 29670; 29671;
  29672; 29673; 29674].
(** The absolute values. *)
Definition sdiv_A : list N := [
  16819; 16820; 16821; 16822; 16823; 16824; 16825; 16826; 16827; 16828; 16829; 16830; 16831; 16832; 16833;
  16834; 16835; 16836; 16837; 16838; 16839; 16840; 16841; 16842; 16843; 16844; 16845; 16846; 16847; 16848;
  16849; 16850; 16851; 16852; 16853; 16854; 16855; 16856; 16857; 16858; 16859; 16860; 16861; 16862; 16863;
  16864; 16865; 16866; 16867; 16868; 16869; 16870; 16871; 16872; 16873; 16874; 16875; 16876; 16877; 16878;
  16879; 16880; 16881; 16882].
Definition sdiv_D : list N := [
  16946; 16947; 16948; 16949; 16950; 16951; 16952; 16953; 16954; 16955; 16956; 16957; 16958; 16959; 16960;
  16961; 16962; 16963; 16964; 16965; 16966; 16967; 16968; 16969; 16970; 16971; 16972; 16973; 16974; 16975;
  16976; 16977; 16978; 16979; 16980; 16981; 16982; 16983; 16984; 16985; 16986; 16987; 16988; 16989; 16990;
  16991; 16992; 16993; 16994; 16995; 16996; 16997; 16998; 16999; 17000; 17001; 17002; 17003; 17004; 17005;
  17006; 17007; 17008; 17009].
(** Minus the absolute divisor, and its borrows. *)
Definition sdiv_P : list N := [
  16946; 29864; 4409; 4407; 4405; 4403; 4401; 4399; 4397; 4395; 4393; 4391; 4389; 4387; 4385; 4383; 4381;
  4379; 4377; 4375; 4373; 4371; 4369; 4367; 4365; 4363; 4361; 4359; 4357; 4355; 4353; 4351; 4349; 4347; 4345;
  4343; 4341; 4339; 4337; 4335; 4333; 4331; 4329; 4327; 4325; 4323; 4321; 4319; 4317; 4315; 4313; 4311; 4309;
  4307; 4305; 4303; 4301; 4299; 4297; 4295; 4293; 4291; 4289; 129].
Definition sdiv_bP : list N := [
  16946; 17326; 17327; 17328; 17329; 17330; 17331; 17332; 17333; 17334; 17335; 17336; 17337; 17338; 17339;
  17340; 17341; 17342; 17343; 17344; 17345; 17346; 17347; 17348; 17349; 17350; 17351; 17352; 17353; 17354;
  17355; 17356; 17357; 17358; 17359; 17360; 17361; 17362; 17363; 17364; 17365; 17366; 17367; 17368; 17369;
  17370; 17371; 17372; 17373; 17374; 17375; 17376; 17377; 17378; 17379; 17380; 17381; 17382; 17383; 17384;
  17385; 17386; 17387].
(** The quotient of the absolute values; its negation and carries. *)
Definition sdiv_Q : list N := [
  16566; 16630; 16631; 16632; 16633; 16634; 16635; 16636; 16637; 16638; 16639; 16640; 16641; 16642; 16643;
  16644; 16645; 16646; 16647; 16648; 16649; 16650; 16651; 16652; 16653; 16654; 16655; 16656; 16657; 16658;
  16659; 16660; 16661; 16662; 16663; 16664; 16665; 16666; 16667; 16668; 16669; 16670; 16671; 16672; 16673;
  16674; 16675; 16676; 16677; 16678; 16679; 16680; 16681; 16682; 16683; 16684; 16685; 16686; 16687; 16688;
  16689; 16690; 16691; 16692].
Definition sdiv_nq : list N := [
  16566; 16629; 16567; 16568; 16569; 16570; 16571; 16572; 16573; 16574; 16575; 16576; 16577; 16578; 16579;
  16580; 16581; 16582; 16583; 16584; 16585; 16586; 16587; 16588; 16589; 16590; 16591; 16592; 16593; 16594;
  16595; 16596; 16597; 16598; 16599; 16600; 16601; 16602; 16603; 16604; 16605; 16606; 16607; 16608; 16609;
  16610; 16611; 16612; 16613; 16614; 16615; 16616; 16617; 16618; 16619; 16620; 16621; 16622; 16623; 16624;
  16625; 16626; 16627; 16628].
Definition sdiv_cq : list N := [
  4162; 17388; 17389; 17390; 17391; 17392; 17393; 17394; 17395; 17396; 17397; 17398; 17399; 17400; 17401;
  17402; 17403; 17404; 17405; 17406; 17407; 17408; 17409; 17410; 17411; 17412; 17413; 17414; 17415; 17416;
  17417; 17418; 17419; 17420; 17421; 17422; 17423; 17424; 17425; 17426; 17427; 17428; 17429; 17430; 17431;
  17432; 17433; 17434; 17435; 17436; 17437; 17438; 17439; 17440; 17441; 17442; 17443; 17444; 17445; 17446;
  17447; 17448; 17449].
Definition sdiv_row : list srow := [
  Srow [
    29801; 29802; 29803; 29804; 29805; 29806; 29807; 29808; 29809; 29810; 29811; 29812; 29813; 29814; 29815;
    29816; 29817; 29818; 29819; 29820; 29821; 29822; 29823; 29824; 29825; 29826; 29827; 29828; 29829; 29830;
    29831; 29832; 29833; 29834; 29835; 29836; 29837; 29838; 29839; 29840; 29841; 29842; 29843; 29844; 29845;
    29846; 29847; 29848; 29849; 29850; 29851; 29852; 29853; 29854; 29855; 29856; 29857; 29858; 29859; 29860;
    29861; 29862; 29863]
  [
    255; 254; 253; 252; 251; 250; 249; 248; 247; 246; 245; 244; 243; 242; 241; 240; 239; 238; 237; 236; 235;
    234; 233; 232; 231; 230; 229; 228; 227; 226; 225; 224; 223; 222; 221; 220; 219; 218; 217; 216; 215; 214;
    213; 212; 211; 210; 209; 208; 207; 206; 205; 204; 203; 202; 201; 200; 199; 198; 197; 196; 195; 194; 193] 130;
  Srow [
    29296; 29297; 29298; 29299; 29300; 29301; 29302; 29303; 29304; 29305; 29306; 29307; 29308; 29309; 29310;
    29311; 29312; 29313; 29314; 29315; 29316; 29317; 29318; 29319; 29320; 29321; 29322; 29323; 29324; 29325;
    29326; 29327; 29328; 29329; 29330; 29331; 29332; 29333; 29334; 29335; 29336; 29337; 29338; 29339; 29340;
    29341; 29342; 29343; 29344; 29345; 29346; 29347; 29348; 29349; 29350; 29351; 29352; 29353; 29354; 29355;
    29356; 29357; 29358]
  [
    318; 317; 316; 315; 314; 313; 312; 311; 310; 309; 308; 307; 306; 305; 304; 303; 302; 301; 300; 299; 298;
    297; 296; 295; 294; 293; 292; 291; 290; 289; 288; 287; 286; 285; 284; 283; 282; 281; 280; 279; 278; 277;
    276; 275; 274; 273; 272; 271; 270; 269; 268; 267; 266; 265; 264; 263; 262; 261; 260; 259; 258; 257; 256] 131;
  Srow [
    29107; 29108; 29109; 29110; 29111; 29112; 29113; 29114; 29115; 29116; 29117; 29118; 29119; 29120; 29121;
    29122; 29123; 29124; 29125; 29126; 29127; 29128; 29129; 29130; 29131; 29132; 29133; 29134; 29135; 29136;
    29137; 29138; 29139; 29140; 29141; 29142; 29143; 29144; 29145; 29146; 29147; 29148; 29149; 29150; 29151;
    29152; 29153; 29154; 29155; 29156; 29157; 29158; 29159; 29160; 29161; 29162; 29163; 29164; 29165; 29166;
    29167; 29168; 29169]
  [
    381; 380; 379; 378; 377; 376; 375; 374; 373; 372; 371; 370; 369; 368; 367; 366; 365; 364; 363; 362; 361;
    360; 359; 358; 357; 356; 355; 354; 353; 352; 351; 350; 349; 348; 347; 346; 345; 344; 343; 342; 341; 340;
    339; 338; 337; 336; 335; 334; 333; 332; 331; 330; 329; 328; 327; 326; 325; 324; 323; 322; 321; 320; 319] 132;
  Srow [
    28918; 28919; 28920; 28921; 28922; 28923; 28924; 28925; 28926; 28927; 28928; 28929; 28930; 28931; 28932;
    28933; 28934; 28935; 28936; 28937; 28938; 28939; 28940; 28941; 28942; 28943; 28944; 28945; 28946; 28947;
    28948; 28949; 28950; 28951; 28952; 28953; 28954; 28955; 28956; 28957; 28958; 28959; 28960; 28961; 28962;
    28963; 28964; 28965; 28966; 28967; 28968; 28969; 28970; 28971; 28972; 28973; 28974; 28975; 28976; 28977;
    28978; 28979; 28980]
  [
    444; 443; 442; 441; 440; 439; 438; 437; 436; 435; 434; 433; 432; 431; 430; 429; 428; 427; 426; 425; 424;
    423; 422; 421; 420; 419; 418; 417; 416; 415; 414; 413; 412; 411; 410; 409; 408; 407; 406; 405; 404; 403;
    402; 401; 400; 399; 398; 397; 396; 395; 394; 393; 392; 391; 390; 389; 388; 387; 386; 385; 384; 383; 382] 133;
  Srow [
    28729; 28730; 28731; 28732; 28733; 28734; 28735; 28736; 28737; 28738; 28739; 28740; 28741; 28742; 28743;
    28744; 28745; 28746; 28747; 28748; 28749; 28750; 28751; 28752; 28753; 28754; 28755; 28756; 28757; 28758;
    28759; 28760; 28761; 28762; 28763; 28764; 28765; 28766; 28767; 28768; 28769; 28770; 28771; 28772; 28773;
    28774; 28775; 28776; 28777; 28778; 28779; 28780; 28781; 28782; 28783; 28784; 28785; 28786; 28787; 28788;
    28789; 28790; 28791]
  [
    507; 506; 505; 504; 503; 502; 501; 500; 499; 498; 497; 496; 495; 494; 493; 492; 491; 490; 489; 488; 487;
    486; 485; 484; 483; 482; 481; 480; 479; 478; 477; 476; 475; 474; 473; 472; 471; 470; 469; 468; 467; 466;
    465; 464; 463; 462; 461; 460; 459; 458; 457; 456; 455; 454; 453; 452; 451; 450; 449; 448; 447; 446; 445] 134;
  Srow [
    28540; 28541; 28542; 28543; 28544; 28545; 28546; 28547; 28548; 28549; 28550; 28551; 28552; 28553; 28554;
    28555; 28556; 28557; 28558; 28559; 28560; 28561; 28562; 28563; 28564; 28565; 28566; 28567; 28568; 28569;
    28570; 28571; 28572; 28573; 28574; 28575; 28576; 28577; 28578; 28579; 28580; 28581; 28582; 28583; 28584;
    28585; 28586; 28587; 28588; 28589; 28590; 28591; 28592; 28593; 28594; 28595; 28596; 28597; 28598; 28599;
    28600; 28601; 28602]
  [
    570; 569; 568; 567; 566; 565; 564; 563; 562; 561; 560; 559; 558; 557; 556; 555; 554; 553; 552; 551; 550;
    549; 548; 547; 546; 545; 544; 543; 542; 541; 540; 539; 538; 537; 536; 535; 534; 533; 532; 531; 530; 529;
    528; 527; 526; 525; 524; 523; 522; 521; 520; 519; 518; 517; 516; 515; 514; 513; 512; 511; 510; 509; 508] 135;
  Srow [
    28351; 28352; 28353; 28354; 28355; 28356; 28357; 28358; 28359; 28360; 28361; 28362; 28363; 28364; 28365;
    28366; 28367; 28368; 28369; 28370; 28371; 28372; 28373; 28374; 28375; 28376; 28377; 28378; 28379; 28380;
    28381; 28382; 28383; 28384; 28385; 28386; 28387; 28388; 28389; 28390; 28391; 28392; 28393; 28394; 28395;
    28396; 28397; 28398; 28399; 28400; 28401; 28402; 28403; 28404; 28405; 28406; 28407; 28408; 28409; 28410;
    28411; 28412; 28413]
  [
    633; 632; 631; 630; 629; 628; 627; 626; 625; 624; 623; 622; 621; 620; 619; 618; 617; 616; 615; 614; 613;
    612; 611; 610; 609; 608; 607; 606; 605; 604; 603; 602; 601; 600; 599; 598; 597; 596; 595; 594; 593; 592;
    591; 590; 589; 588; 587; 586; 585; 584; 583; 582; 581; 580; 579; 578; 577; 576; 575; 574; 573; 572; 571] 136;
  Srow [
    28162; 28163; 28164; 28165; 28166; 28167; 28168; 28169; 28170; 28171; 28172; 28173; 28174; 28175; 28176;
    28177; 28178; 28179; 28180; 28181; 28182; 28183; 28184; 28185; 28186; 28187; 28188; 28189; 28190; 28191;
    28192; 28193; 28194; 28195; 28196; 28197; 28198; 28199; 28200; 28201; 28202; 28203; 28204; 28205; 28206;
    28207; 28208; 28209; 28210; 28211; 28212; 28213; 28214; 28215; 28216; 28217; 28218; 28219; 28220; 28221;
    28222; 28223; 28224]
  [
    696; 695; 694; 693; 692; 691; 690; 689; 688; 687; 686; 685; 684; 683; 682; 681; 680; 679; 678; 677; 676;
    675; 674; 673; 672; 671; 670; 669; 668; 667; 666; 665; 664; 663; 662; 661; 660; 659; 658; 657; 656; 655;
    654; 653; 652; 651; 650; 649; 648; 647; 646; 645; 644; 643; 642; 641; 640; 639; 638; 637; 636; 635; 634] 137;
  Srow [
    27973; 27974; 27975; 27976; 27977; 27978; 27979; 27980; 27981; 27982; 27983; 27984; 27985; 27986; 27987;
    27988; 27989; 27990; 27991; 27992; 27993; 27994; 27995; 27996; 27997; 27998; 27999; 28000; 28001; 28002;
    28003; 28004; 28005; 28006; 28007; 28008; 28009; 28010; 28011; 28012; 28013; 28014; 28015; 28016; 28017;
    28018; 28019; 28020; 28021; 28022; 28023; 28024; 28025; 28026; 28027; 28028; 28029; 28030; 28031; 28032;
    28033; 28034; 28035]
  [
    759; 758; 757; 756; 755; 754; 753; 752; 751; 750; 749; 748; 747; 746; 745; 744; 743; 742; 741; 740; 739;
    738; 737; 736; 735; 734; 733; 732; 731; 730; 729; 728; 727; 726; 725; 724; 723; 722; 721; 720; 719; 718;
    717; 716; 715; 714; 713; 712; 711; 710; 709; 708; 707; 706; 705; 704; 703; 702; 701; 700; 699; 698; 697] 138;
  Srow [
    27784; 27785; 27786; 27787; 27788; 27789; 27790; 27791; 27792; 27793; 27794; 27795; 27796; 27797; 27798;
    27799; 27800; 27801; 27802; 27803; 27804; 27805; 27806; 27807; 27808; 27809; 27810; 27811; 27812; 27813;
    27814; 27815; 27816; 27817; 27818; 27819; 27820; 27821; 27822; 27823; 27824; 27825; 27826; 27827; 27828;
    27829; 27830; 27831; 27832; 27833; 27834; 27835; 27836; 27837; 27838; 27839; 27840; 27841; 27842; 27843;
    27844; 27845; 27846]
  [
    822; 821; 820; 819; 818; 817; 816; 815; 814; 813; 812; 811; 810; 809; 808; 807; 806; 805; 804; 803; 802;
    801; 800; 799; 798; 797; 796; 795; 794; 793; 792; 791; 790; 789; 788; 787; 786; 785; 784; 783; 782; 781;
    780; 779; 778; 777; 776; 775; 774; 773; 772; 771; 770; 769; 768; 767; 766; 765; 764; 763; 762; 761; 760] 139;
  Srow [
    27595; 27596; 27597; 27598; 27599; 27600; 27601; 27602; 27603; 27604; 27605; 27606; 27607; 27608; 27609;
    27610; 27611; 27612; 27613; 27614; 27615; 27616; 27617; 27618; 27619; 27620; 27621; 27622; 27623; 27624;
    27625; 27626; 27627; 27628; 27629; 27630; 27631; 27632; 27633; 27634; 27635; 27636; 27637; 27638; 27639;
    27640; 27641; 27642; 27643; 27644; 27645; 27646; 27647; 27648; 27649; 27650; 27651; 27652; 27653; 27654;
    27655; 27656; 27657]
  [
    885; 884; 883; 882; 881; 880; 879; 878; 877; 876; 875; 874; 873; 872; 871; 870; 869; 868; 867; 866; 865;
    864; 863; 862; 861; 860; 859; 858; 857; 856; 855; 854; 853; 852; 851; 850; 849; 848; 847; 846; 845; 844;
    843; 842; 841; 840; 839; 838; 837; 836; 835; 834; 833; 832; 831; 830; 829; 828; 827; 826; 825; 824; 823] 140;
  Srow [
    27406; 27407; 27408; 27409; 27410; 27411; 27412; 27413; 27414; 27415; 27416; 27417; 27418; 27419; 27420;
    27421; 27422; 27423; 27424; 27425; 27426; 27427; 27428; 27429; 27430; 27431; 27432; 27433; 27434; 27435;
    27436; 27437; 27438; 27439; 27440; 27441; 27442; 27443; 27444; 27445; 27446; 27447; 27448; 27449; 27450;
    27451; 27452; 27453; 27454; 27455; 27456; 27457; 27458; 27459; 27460; 27461; 27462; 27463; 27464; 27465;
    27466; 27467; 27468]
  [
    948; 947; 946; 945; 944; 943; 942; 941; 940; 939; 938; 937; 936; 935; 934; 933; 932; 931; 930; 929; 928;
    927; 926; 925; 924; 923; 922; 921; 920; 919; 918; 917; 916; 915; 914; 913; 912; 911; 910; 909; 908; 907;
    906; 905; 904; 903; 902; 901; 900; 899; 898; 897; 896; 895; 894; 893; 892; 891; 890; 889; 888; 887; 886] 141;
  Srow [
    27217; 27218; 27219; 27220; 27221; 27222; 27223; 27224; 27225; 27226; 27227; 27228; 27229; 27230; 27231;
    27232; 27233; 27234; 27235; 27236; 27237; 27238; 27239; 27240; 27241; 27242; 27243; 27244; 27245; 27246;
    27247; 27248; 27249; 27250; 27251; 27252; 27253; 27254; 27255; 27256; 27257; 27258; 27259; 27260; 27261;
    27262; 27263; 27264; 27265; 27266; 27267; 27268; 27269; 27270; 27271; 27272; 27273; 27274; 27275; 27276;
    27277; 27278; 27279]
  [
    1011; 1010; 1009; 1008; 1007; 1006; 1005; 1004; 1003; 1002; 1001; 1000; 999; 998; 997; 996; 995; 994;
    993; 992; 991; 990; 989; 988; 987; 986; 985; 984; 983; 982; 981; 980; 979; 978; 977; 976; 975; 974; 973;
    972; 971; 970; 969; 968; 967; 966; 965; 964; 963; 962; 961; 960; 959; 958; 957; 956; 955; 954; 953; 952;
    951; 950; 949] 142;
  Srow [
    27028; 27029; 27030; 27031; 27032; 27033; 27034; 27035; 27036; 27037; 27038; 27039; 27040; 27041; 27042;
    27043; 27044; 27045; 27046; 27047; 27048; 27049; 27050; 27051; 27052; 27053; 27054; 27055; 27056; 27057;
    27058; 27059; 27060; 27061; 27062; 27063; 27064; 27065; 27066; 27067; 27068; 27069; 27070; 27071; 27072;
    27073; 27074; 27075; 27076; 27077; 27078; 27079; 27080; 27081; 27082; 27083; 27084; 27085; 27086; 27087;
    27088; 27089; 27090]
  [
    1074; 1073; 1072; 1071; 1070; 1069; 1068; 1067; 1066; 1065; 1064; 1063; 1062; 1061; 1060; 1059; 1058;
    1057; 1056; 1055; 1054; 1053; 1052; 1051; 1050; 1049; 1048; 1047; 1046; 1045; 1044; 1043; 1042; 1041;
    1040; 1039; 1038; 1037; 1036; 1035; 1034; 1033; 1032; 1031; 1030; 1029; 1028; 1027; 1026; 1025; 1024;
    1023; 1022; 1021; 1020; 1019; 1018; 1017; 1016; 1015; 1014; 1013; 1012] 143;
  Srow [
    26839; 26840; 26841; 26842; 26843; 26844; 26845; 26846; 26847; 26848; 26849; 26850; 26851; 26852; 26853;
    26854; 26855; 26856; 26857; 26858; 26859; 26860; 26861; 26862; 26863; 26864; 26865; 26866; 26867; 26868;
    26869; 26870; 26871; 26872; 26873; 26874; 26875; 26876; 26877; 26878; 26879; 26880; 26881; 26882; 26883;
    26884; 26885; 26886; 26887; 26888; 26889; 26890; 26891; 26892; 26893; 26894; 26895; 26896; 26897; 26898;
    26899; 26900; 26901]
  [
    1137; 1136; 1135; 1134; 1133; 1132; 1131; 1130; 1129; 1128; 1127; 1126; 1125; 1124; 1123; 1122; 1121;
    1120; 1119; 1118; 1117; 1116; 1115; 1114; 1113; 1112; 1111; 1110; 1109; 1108; 1107; 1106; 1105; 1104;
    1103; 1102; 1101; 1100; 1099; 1098; 1097; 1096; 1095; 1094; 1093; 1092; 1091; 1090; 1089; 1088; 1087;
    1086; 1085; 1084; 1083; 1082; 1081; 1080; 1079; 1078; 1077; 1076; 1075] 144;
  Srow [
    26650; 26651; 26652; 26653; 26654; 26655; 26656; 26657; 26658; 26659; 26660; 26661; 26662; 26663; 26664;
    26665; 26666; 26667; 26668; 26669; 26670; 26671; 26672; 26673; 26674; 26675; 26676; 26677; 26678; 26679;
    26680; 26681; 26682; 26683; 26684; 26685; 26686; 26687; 26688; 26689; 26690; 26691; 26692; 26693; 26694;
    26695; 26696; 26697; 26698; 26699; 26700; 26701; 26702; 26703; 26704; 26705; 26706; 26707; 26708; 26709;
    26710; 26711; 26712]
  [
    1200; 1199; 1198; 1197; 1196; 1195; 1194; 1193; 1192; 1191; 1190; 1189; 1188; 1187; 1186; 1185; 1184;
    1183; 1182; 1181; 1180; 1179; 1178; 1177; 1176; 1175; 1174; 1173; 1172; 1171; 1170; 1169; 1168; 1167;
    1166; 1165; 1164; 1163; 1162; 1161; 1160; 1159; 1158; 1157; 1156; 1155; 1154; 1153; 1152; 1151; 1150;
    1149; 1148; 1147; 1146; 1145; 1144; 1143; 1142; 1141; 1140; 1139; 1138] 145;
  Srow [
    26461; 26462; 26463; 26464; 26465; 26466; 26467; 26468; 26469; 26470; 26471; 26472; 26473; 26474; 26475;
    26476; 26477; 26478; 26479; 26480; 26481; 26482; 26483; 26484; 26485; 26486; 26487; 26488; 26489; 26490;
    26491; 26492; 26493; 26494; 26495; 26496; 26497; 26498; 26499; 26500; 26501; 26502; 26503; 26504; 26505;
    26506; 26507; 26508; 26509; 26510; 26511; 26512; 26513; 26514; 26515; 26516; 26517; 26518; 26519; 26520;
    26521; 26522; 26523]
  [
    1263; 1262; 1261; 1260; 1259; 1258; 1257; 1256; 1255; 1254; 1253; 1252; 1251; 1250; 1249; 1248; 1247;
    1246; 1245; 1244; 1243; 1242; 1241; 1240; 1239; 1238; 1237; 1236; 1235; 1234; 1233; 1232; 1231; 1230;
    1229; 1228; 1227; 1226; 1225; 1224; 1223; 1222; 1221; 1220; 1219; 1218; 1217; 1216; 1215; 1214; 1213;
    1212; 1211; 1210; 1209; 1208; 1207; 1206; 1205; 1204; 1203; 1202; 1201] 146;
  Srow [
    26272; 26273; 26274; 26275; 26276; 26277; 26278; 26279; 26280; 26281; 26282; 26283; 26284; 26285; 26286;
    26287; 26288; 26289; 26290; 26291; 26292; 26293; 26294; 26295; 26296; 26297; 26298; 26299; 26300; 26301;
    26302; 26303; 26304; 26305; 26306; 26307; 26308; 26309; 26310; 26311; 26312; 26313; 26314; 26315; 26316;
    26317; 26318; 26319; 26320; 26321; 26322; 26323; 26324; 26325; 26326; 26327; 26328; 26329; 26330; 26331;
    26332; 26333; 26334]
  [
    1326; 1325; 1324; 1323; 1322; 1321; 1320; 1319; 1318; 1317; 1316; 1315; 1314; 1313; 1312; 1311; 1310;
    1309; 1308; 1307; 1306; 1305; 1304; 1303; 1302; 1301; 1300; 1299; 1298; 1297; 1296; 1295; 1294; 1293;
    1292; 1291; 1290; 1289; 1288; 1287; 1286; 1285; 1284; 1283; 1282; 1281; 1280; 1279; 1278; 1277; 1276;
    1275; 1274; 1273; 1272; 1271; 1270; 1269; 1268; 1267; 1266; 1265; 1264] 147;
  Srow [
    26083; 26084; 26085; 26086; 26087; 26088; 26089; 26090; 26091; 26092; 26093; 26094; 26095; 26096; 26097;
    26098; 26099; 26100; 26101; 26102; 26103; 26104; 26105; 26106; 26107; 26108; 26109; 26110; 26111; 26112;
    26113; 26114; 26115; 26116; 26117; 26118; 26119; 26120; 26121; 26122; 26123; 26124; 26125; 26126; 26127;
    26128; 26129; 26130; 26131; 26132; 26133; 26134; 26135; 26136; 26137; 26138; 26139; 26140; 26141; 26142;
    26143; 26144; 26145]
  [
    1389; 1388; 1387; 1386; 1385; 1384; 1383; 1382; 1381; 1380; 1379; 1378; 1377; 1376; 1375; 1374; 1373;
    1372; 1371; 1370; 1369; 1368; 1367; 1366; 1365; 1364; 1363; 1362; 1361; 1360; 1359; 1358; 1357; 1356;
    1355; 1354; 1353; 1352; 1351; 1350; 1349; 1348; 1347; 1346; 1345; 1344; 1343; 1342; 1341; 1340; 1339;
    1338; 1337; 1336; 1335; 1334; 1333; 1332; 1331; 1330; 1329; 1328; 1327] 148;
  Srow [
    25894; 25895; 25896; 25897; 25898; 25899; 25900; 25901; 25902; 25903; 25904; 25905; 25906; 25907; 25908;
    25909; 25910; 25911; 25912; 25913; 25914; 25915; 25916; 25917; 25918; 25919; 25920; 25921; 25922; 25923;
    25924; 25925; 25926; 25927; 25928; 25929; 25930; 25931; 25932; 25933; 25934; 25935; 25936; 25937; 25938;
    25939; 25940; 25941; 25942; 25943; 25944; 25945; 25946; 25947; 25948; 25949; 25950; 25951; 25952; 25953;
    25954; 25955; 25956]
  [
    1452; 1451; 1450; 1449; 1448; 1447; 1446; 1445; 1444; 1443; 1442; 1441; 1440; 1439; 1438; 1437; 1436;
    1435; 1434; 1433; 1432; 1431; 1430; 1429; 1428; 1427; 1426; 1425; 1424; 1423; 1422; 1421; 1420; 1419;
    1418; 1417; 1416; 1415; 1414; 1413; 1412; 1411; 1410; 1409; 1408; 1407; 1406; 1405; 1404; 1403; 1402;
    1401; 1400; 1399; 1398; 1397; 1396; 1395; 1394; 1393; 1392; 1391; 1390] 149;
  Srow [
    25705; 25706; 25707; 25708; 25709; 25710; 25711; 25712; 25713; 25714; 25715; 25716; 25717; 25718; 25719;
    25720; 25721; 25722; 25723; 25724; 25725; 25726; 25727; 25728; 25729; 25730; 25731; 25732; 25733; 25734;
    25735; 25736; 25737; 25738; 25739; 25740; 25741; 25742; 25743; 25744; 25745; 25746; 25747; 25748; 25749;
    25750; 25751; 25752; 25753; 25754; 25755; 25756; 25757; 25758; 25759; 25760; 25761; 25762; 25763; 25764;
    25765; 25766; 25767]
  [
    1515; 1514; 1513; 1512; 1511; 1510; 1509; 1508; 1507; 1506; 1505; 1504; 1503; 1502; 1501; 1500; 1499;
    1498; 1497; 1496; 1495; 1494; 1493; 1492; 1491; 1490; 1489; 1488; 1487; 1486; 1485; 1484; 1483; 1482;
    1481; 1480; 1479; 1478; 1477; 1476; 1475; 1474; 1473; 1472; 1471; 1470; 1469; 1468; 1467; 1466; 1465;
    1464; 1463; 1462; 1461; 1460; 1459; 1458; 1457; 1456; 1455; 1454; 1453] 150;
  Srow [
    25516; 25517; 25518; 25519; 25520; 25521; 25522; 25523; 25524; 25525; 25526; 25527; 25528; 25529; 25530;
    25531; 25532; 25533; 25534; 25535; 25536; 25537; 25538; 25539; 25540; 25541; 25542; 25543; 25544; 25545;
    25546; 25547; 25548; 25549; 25550; 25551; 25552; 25553; 25554; 25555; 25556; 25557; 25558; 25559; 25560;
    25561; 25562; 25563; 25564; 25565; 25566; 25567; 25568; 25569; 25570; 25571; 25572; 25573; 25574; 25575;
    25576; 25577; 25578]
  [
    1578; 1577; 1576; 1575; 1574; 1573; 1572; 1571; 1570; 1569; 1568; 1567; 1566; 1565; 1564; 1563; 1562;
    1561; 1560; 1559; 1558; 1557; 1556; 1555; 1554; 1553; 1552; 1551; 1550; 1549; 1548; 1547; 1546; 1545;
    1544; 1543; 1542; 1541; 1540; 1539; 1538; 1537; 1536; 1535; 1534; 1533; 1532; 1531; 1530; 1529; 1528;
    1527; 1526; 1525; 1524; 1523; 1522; 1521; 1520; 1519; 1518; 1517; 1516] 151;
  Srow [
    25327; 25328; 25329; 25330; 25331; 25332; 25333; 25334; 25335; 25336; 25337; 25338; 25339; 25340; 25341;
    25342; 25343; 25344; 25345; 25346; 25347; 25348; 25349; 25350; 25351; 25352; 25353; 25354; 25355; 25356;
    25357; 25358; 25359; 25360; 25361; 25362; 25363; 25364; 25365; 25366; 25367; 25368; 25369; 25370; 25371;
    25372; 25373; 25374; 25375; 25376; 25377; 25378; 25379; 25380; 25381; 25382; 25383; 25384; 25385; 25386;
    25387; 25388; 25389]
  [
    1641; 1640; 1639; 1638; 1637; 1636; 1635; 1634; 1633; 1632; 1631; 1630; 1629; 1628; 1627; 1626; 1625;
    1624; 1623; 1622; 1621; 1620; 1619; 1618; 1617; 1616; 1615; 1614; 1613; 1612; 1611; 1610; 1609; 1608;
    1607; 1606; 1605; 1604; 1603; 1602; 1601; 1600; 1599; 1598; 1597; 1596; 1595; 1594; 1593; 1592; 1591;
    1590; 1589; 1588; 1587; 1586; 1585; 1584; 1583; 1582; 1581; 1580; 1579] 152;
  Srow [
    25138; 25139; 25140; 25141; 25142; 25143; 25144; 25145; 25146; 25147; 25148; 25149; 25150; 25151; 25152;
    25153; 25154; 25155; 25156; 25157; 25158; 25159; 25160; 25161; 25162; 25163; 25164; 25165; 25166; 25167;
    25168; 25169; 25170; 25171; 25172; 25173; 25174; 25175; 25176; 25177; 25178; 25179; 25180; 25181; 25182;
    25183; 25184; 25185; 25186; 25187; 25188; 25189; 25190; 25191; 25192; 25193; 25194; 25195; 25196; 25197;
    25198; 25199; 25200]
  [
    1704; 1703; 1702; 1701; 1700; 1699; 1698; 1697; 1696; 1695; 1694; 1693; 1692; 1691; 1690; 1689; 1688;
    1687; 1686; 1685; 1684; 1683; 1682; 1681; 1680; 1679; 1678; 1677; 1676; 1675; 1674; 1673; 1672; 1671;
    1670; 1669; 1668; 1667; 1666; 1665; 1664; 1663; 1662; 1661; 1660; 1659; 1658; 1657; 1656; 1655; 1654;
    1653; 1652; 1651; 1650; 1649; 1648; 1647; 1646; 1645; 1644; 1643; 1642] 153;
  Srow [
    24949; 24950; 24951; 24952; 24953; 24954; 24955; 24956; 24957; 24958; 24959; 24960; 24961; 24962; 24963;
    24964; 24965; 24966; 24967; 24968; 24969; 24970; 24971; 24972; 24973; 24974; 24975; 24976; 24977; 24978;
    24979; 24980; 24981; 24982; 24983; 24984; 24985; 24986; 24987; 24988; 24989; 24990; 24991; 24992; 24993;
    24994; 24995; 24996; 24997; 24998; 24999; 25000; 25001; 25002; 25003; 25004; 25005; 25006; 25007; 25008;
    25009; 25010; 25011]
  [
    1767; 1766; 1765; 1764; 1763; 1762; 1761; 1760; 1759; 1758; 1757; 1756; 1755; 1754; 1753; 1752; 1751;
    1750; 1749; 1748; 1747; 1746; 1745; 1744; 1743; 1742; 1741; 1740; 1739; 1738; 1737; 1736; 1735; 1734;
    1733; 1732; 1731; 1730; 1729; 1728; 1727; 1726; 1725; 1724; 1723; 1722; 1721; 1720; 1719; 1718; 1717;
    1716; 1715; 1714; 1713; 1712; 1711; 1710; 1709; 1708; 1707; 1706; 1705] 154;
  Srow [
    24760; 24761; 24762; 24763; 24764; 24765; 24766; 24767; 24768; 24769; 24770; 24771; 24772; 24773; 24774;
    24775; 24776; 24777; 24778; 24779; 24780; 24781; 24782; 24783; 24784; 24785; 24786; 24787; 24788; 24789;
    24790; 24791; 24792; 24793; 24794; 24795; 24796; 24797; 24798; 24799; 24800; 24801; 24802; 24803; 24804;
    24805; 24806; 24807; 24808; 24809; 24810; 24811; 24812; 24813; 24814; 24815; 24816; 24817; 24818; 24819;
    24820; 24821; 24822]
  [
    1830; 1829; 1828; 1827; 1826; 1825; 1824; 1823; 1822; 1821; 1820; 1819; 1818; 1817; 1816; 1815; 1814;
    1813; 1812; 1811; 1810; 1809; 1808; 1807; 1806; 1805; 1804; 1803; 1802; 1801; 1800; 1799; 1798; 1797;
    1796; 1795; 1794; 1793; 1792; 1791; 1790; 1789; 1788; 1787; 1786; 1785; 1784; 1783; 1782; 1781; 1780;
    1779; 1778; 1777; 1776; 1775; 1774; 1773; 1772; 1771; 1770; 1769; 1768] 155;
  Srow [
    24571; 24572; 24573; 24574; 24575; 24576; 24577; 24578; 24579; 24580; 24581; 24582; 24583; 24584; 24585;
    24586; 24587; 24588; 24589; 24590; 24591; 24592; 24593; 24594; 24595; 24596; 24597; 24598; 24599; 24600;
    24601; 24602; 24603; 24604; 24605; 24606; 24607; 24608; 24609; 24610; 24611; 24612; 24613; 24614; 24615;
    24616; 24617; 24618; 24619; 24620; 24621; 24622; 24623; 24624; 24625; 24626; 24627; 24628; 24629; 24630;
    24631; 24632; 24633]
  [
    1893; 1892; 1891; 1890; 1889; 1888; 1887; 1886; 1885; 1884; 1883; 1882; 1881; 1880; 1879; 1878; 1877;
    1876; 1875; 1874; 1873; 1872; 1871; 1870; 1869; 1868; 1867; 1866; 1865; 1864; 1863; 1862; 1861; 1860;
    1859; 1858; 1857; 1856; 1855; 1854; 1853; 1852; 1851; 1850; 1849; 1848; 1847; 1846; 1845; 1844; 1843;
    1842; 1841; 1840; 1839; 1838; 1837; 1836; 1835; 1834; 1833; 1832; 1831] 156;
  Srow [
    24382; 24383; 24384; 24385; 24386; 24387; 24388; 24389; 24390; 24391; 24392; 24393; 24394; 24395; 24396;
    24397; 24398; 24399; 24400; 24401; 24402; 24403; 24404; 24405; 24406; 24407; 24408; 24409; 24410; 24411;
    24412; 24413; 24414; 24415; 24416; 24417; 24418; 24419; 24420; 24421; 24422; 24423; 24424; 24425; 24426;
    24427; 24428; 24429; 24430; 24431; 24432; 24433; 24434; 24435; 24436; 24437; 24438; 24439; 24440; 24441;
    24442; 24443; 24444]
  [
    1956; 1955; 1954; 1953; 1952; 1951; 1950; 1949; 1948; 1947; 1946; 1945; 1944; 1943; 1942; 1941; 1940;
    1939; 1938; 1937; 1936; 1935; 1934; 1933; 1932; 1931; 1930; 1929; 1928; 1927; 1926; 1925; 1924; 1923;
    1922; 1921; 1920; 1919; 1918; 1917; 1916; 1915; 1914; 1913; 1912; 1911; 1910; 1909; 1908; 1907; 1906;
    1905; 1904; 1903; 1902; 1901; 1900; 1899; 1898; 1897; 1896; 1895; 1894] 157;
  Srow [
    24193; 24194; 24195; 24196; 24197; 24198; 24199; 24200; 24201; 24202; 24203; 24204; 24205; 24206; 24207;
    24208; 24209; 24210; 24211; 24212; 24213; 24214; 24215; 24216; 24217; 24218; 24219; 24220; 24221; 24222;
    24223; 24224; 24225; 24226; 24227; 24228; 24229; 24230; 24231; 24232; 24233; 24234; 24235; 24236; 24237;
    24238; 24239; 24240; 24241; 24242; 24243; 24244; 24245; 24246; 24247; 24248; 24249; 24250; 24251; 24252;
    24253; 24254; 24255]
  [
    2019; 2018; 2017; 2016; 2015; 2014; 2013; 2012; 2011; 2010; 2009; 2008; 2007; 2006; 2005; 2004; 2003;
    2002; 2001; 2000; 1999; 1998; 1997; 1996; 1995; 1994; 1993; 1992; 1991; 1990; 1989; 1988; 1987; 1986;
    1985; 1984; 1983; 1982; 1981; 1980; 1979; 1978; 1977; 1976; 1975; 1974; 1973; 1972; 1971; 1970; 1969;
    1968; 1967; 1966; 1965; 1964; 1963; 1962; 1961; 1960; 1959; 1958; 1957] 158;
  Srow [
    24004; 24005; 24006; 24007; 24008; 24009; 24010; 24011; 24012; 24013; 24014; 24015; 24016; 24017; 24018;
    24019; 24020; 24021; 24022; 24023; 24024; 24025; 24026; 24027; 24028; 24029; 24030; 24031; 24032; 24033;
    24034; 24035; 24036; 24037; 24038; 24039; 24040; 24041; 24042; 24043; 24044; 24045; 24046; 24047; 24048;
    24049; 24050; 24051; 24052; 24053; 24054; 24055; 24056; 24057; 24058; 24059; 24060; 24061; 24062; 24063;
    24064; 24065; 24066]
  [
    2082; 2081; 2080; 2079; 2078; 2077; 2076; 2075; 2074; 2073; 2072; 2071; 2070; 2069; 2068; 2067; 2066;
    2065; 2064; 2063; 2062; 2061; 2060; 2059; 2058; 2057; 2056; 2055; 2054; 2053; 2052; 2051; 2050; 2049;
    2048; 2047; 2046; 2045; 2044; 2043; 2042; 2041; 2040; 2039; 2038; 2037; 2036; 2035; 2034; 2033; 2032;
    2031; 2030; 2029; 2028; 2027; 2026; 2025; 2024; 2023; 2022; 2021; 2020] 159;
  Srow [
    23815; 23816; 23817; 23818; 23819; 23820; 23821; 23822; 23823; 23824; 23825; 23826; 23827; 23828; 23829;
    23830; 23831; 23832; 23833; 23834; 23835; 23836; 23837; 23838; 23839; 23840; 23841; 23842; 23843; 23844;
    23845; 23846; 23847; 23848; 23849; 23850; 23851; 23852; 23853; 23854; 23855; 23856; 23857; 23858; 23859;
    23860; 23861; 23862; 23863; 23864; 23865; 23866; 23867; 23868; 23869; 23870; 23871; 23872; 23873; 23874;
    23875; 23876; 23877]
  [
    2145; 2144; 2143; 2142; 2141; 2140; 2139; 2138; 2137; 2136; 2135; 2134; 2133; 2132; 2131; 2130; 2129;
    2128; 2127; 2126; 2125; 2124; 2123; 2122; 2121; 2120; 2119; 2118; 2117; 2116; 2115; 2114; 2113; 2112;
    2111; 2110; 2109; 2108; 2107; 2106; 2105; 2104; 2103; 2102; 2101; 2100; 2099; 2098; 2097; 2096; 2095;
    2094; 2093; 2092; 2091; 2090; 2089; 2088; 2087; 2086; 2085; 2084; 2083] 160;
  Srow [
    23626; 23627; 23628; 23629; 23630; 23631; 23632; 23633; 23634; 23635; 23636; 23637; 23638; 23639; 23640;
    23641; 23642; 23643; 23644; 23645; 23646; 23647; 23648; 23649; 23650; 23651; 23652; 23653; 23654; 23655;
    23656; 23657; 23658; 23659; 23660; 23661; 23662; 23663; 23664; 23665; 23666; 23667; 23668; 23669; 23670;
    23671; 23672; 23673; 23674; 23675; 23676; 23677; 23678; 23679; 23680; 23681; 23682; 23683; 23684; 23685;
    23686; 23687; 23688]
  [
    2208; 2207; 2206; 2205; 2204; 2203; 2202; 2201; 2200; 2199; 2198; 2197; 2196; 2195; 2194; 2193; 2192;
    2191; 2190; 2189; 2188; 2187; 2186; 2185; 2184; 2183; 2182; 2181; 2180; 2179; 2178; 2177; 2176; 2175;
    2174; 2173; 2172; 2171; 2170; 2169; 2168; 2167; 2166; 2165; 2164; 2163; 2162; 2161; 2160; 2159; 2158;
    2157; 2156; 2155; 2154; 2153; 2152; 2151; 2150; 2149; 2148; 2147; 2146] 161;
  Srow [
    23437; 23438; 23439; 23440; 23441; 23442; 23443; 23444; 23445; 23446; 23447; 23448; 23449; 23450; 23451;
    23452; 23453; 23454; 23455; 23456; 23457; 23458; 23459; 23460; 23461; 23462; 23463; 23464; 23465; 23466;
    23467; 23468; 23469; 23470; 23471; 23472; 23473; 23474; 23475; 23476; 23477; 23478; 23479; 23480; 23481;
    23482; 23483; 23484; 23485; 23486; 23487; 23488; 23489; 23490; 23491; 23492; 23493; 23494; 23495; 23496;
    23497; 23498; 23499]
  [
    2271; 2270; 2269; 2268; 2267; 2266; 2265; 2264; 2263; 2262; 2261; 2260; 2259; 2258; 2257; 2256; 2255;
    2254; 2253; 2252; 2251; 2250; 2249; 2248; 2247; 2246; 2245; 2244; 2243; 2242; 2241; 2240; 2239; 2238;
    2237; 2236; 2235; 2234; 2233; 2232; 2231; 2230; 2229; 2228; 2227; 2226; 2225; 2224; 2223; 2222; 2221;
    2220; 2219; 2218; 2217; 2216; 2215; 2214; 2213; 2212; 2211; 2210; 2209] 162;
  Srow [
    23248; 23249; 23250; 23251; 23252; 23253; 23254; 23255; 23256; 23257; 23258; 23259; 23260; 23261; 23262;
    23263; 23264; 23265; 23266; 23267; 23268; 23269; 23270; 23271; 23272; 23273; 23274; 23275; 23276; 23277;
    23278; 23279; 23280; 23281; 23282; 23283; 23284; 23285; 23286; 23287; 23288; 23289; 23290; 23291; 23292;
    23293; 23294; 23295; 23296; 23297; 23298; 23299; 23300; 23301; 23302; 23303; 23304; 23305; 23306; 23307;
    23308; 23309; 23310]
  [
    2334; 2333; 2332; 2331; 2330; 2329; 2328; 2327; 2326; 2325; 2324; 2323; 2322; 2321; 2320; 2319; 2318;
    2317; 2316; 2315; 2314; 2313; 2312; 2311; 2310; 2309; 2308; 2307; 2306; 2305; 2304; 2303; 2302; 2301;
    2300; 2299; 2298; 2297; 2296; 2295; 2294; 2293; 2292; 2291; 2290; 2289; 2288; 2287; 2286; 2285; 2284;
    2283; 2282; 2281; 2280; 2279; 2278; 2277; 2276; 2275; 2274; 2273; 2272] 163;
  Srow [
    23059; 23060; 23061; 23062; 23063; 23064; 23065; 23066; 23067; 23068; 23069; 23070; 23071; 23072; 23073;
    23074; 23075; 23076; 23077; 23078; 23079; 23080; 23081; 23082; 23083; 23084; 23085; 23086; 23087; 23088;
    23089; 23090; 23091; 23092; 23093; 23094; 23095; 23096; 23097; 23098; 23099; 23100; 23101; 23102; 23103;
    23104; 23105; 23106; 23107; 23108; 23109; 23110; 23111; 23112; 23113; 23114; 23115; 23116; 23117; 23118;
    23119; 23120; 23121]
  [
    2397; 2396; 2395; 2394; 2393; 2392; 2391; 2390; 2389; 2388; 2387; 2386; 2385; 2384; 2383; 2382; 2381;
    2380; 2379; 2378; 2377; 2376; 2375; 2374; 2373; 2372; 2371; 2370; 2369; 2368; 2367; 2366; 2365; 2364;
    2363; 2362; 2361; 2360; 2359; 2358; 2357; 2356; 2355; 2354; 2353; 2352; 2351; 2350; 2349; 2348; 2347;
    2346; 2345; 2344; 2343; 2342; 2341; 2340; 2339; 2338; 2337; 2336; 2335] 164;
  Srow [
    22870; 22871; 22872; 22873; 22874; 22875; 22876; 22877; 22878; 22879; 22880; 22881; 22882; 22883; 22884;
    22885; 22886; 22887; 22888; 22889; 22890; 22891; 22892; 22893; 22894; 22895; 22896; 22897; 22898; 22899;
    22900; 22901; 22902; 22903; 22904; 22905; 22906; 22907; 22908; 22909; 22910; 22911; 22912; 22913; 22914;
    22915; 22916; 22917; 22918; 22919; 22920; 22921; 22922; 22923; 22924; 22925; 22926; 22927; 22928; 22929;
    22930; 22931; 22932]
  [
    2460; 2459; 2458; 2457; 2456; 2455; 2454; 2453; 2452; 2451; 2450; 2449; 2448; 2447; 2446; 2445; 2444;
    2443; 2442; 2441; 2440; 2439; 2438; 2437; 2436; 2435; 2434; 2433; 2432; 2431; 2430; 2429; 2428; 2427;
    2426; 2425; 2424; 2423; 2422; 2421; 2420; 2419; 2418; 2417; 2416; 2415; 2414; 2413; 2412; 2411; 2410;
    2409; 2408; 2407; 2406; 2405; 2404; 2403; 2402; 2401; 2400; 2399; 2398] 165;
  Srow [
    22681; 22682; 22683; 22684; 22685; 22686; 22687; 22688; 22689; 22690; 22691; 22692; 22693; 22694; 22695;
    22696; 22697; 22698; 22699; 22700; 22701; 22702; 22703; 22704; 22705; 22706; 22707; 22708; 22709; 22710;
    22711; 22712; 22713; 22714; 22715; 22716; 22717; 22718; 22719; 22720; 22721; 22722; 22723; 22724; 22725;
    22726; 22727; 22728; 22729; 22730; 22731; 22732; 22733; 22734; 22735; 22736; 22737; 22738; 22739; 22740;
    22741; 22742; 22743]
  [
    2523; 2522; 2521; 2520; 2519; 2518; 2517; 2516; 2515; 2514; 2513; 2512; 2511; 2510; 2509; 2508; 2507;
    2506; 2505; 2504; 2503; 2502; 2501; 2500; 2499; 2498; 2497; 2496; 2495; 2494; 2493; 2492; 2491; 2490;
    2489; 2488; 2487; 2486; 2485; 2484; 2483; 2482; 2481; 2480; 2479; 2478; 2477; 2476; 2475; 2474; 2473;
    2472; 2471; 2470; 2469; 2468; 2467; 2466; 2465; 2464; 2463; 2462; 2461] 166;
  Srow [
    22492; 22493; 22494; 22495; 22496; 22497; 22498; 22499; 22500; 22501; 22502; 22503; 22504; 22505; 22506;
    22507; 22508; 22509; 22510; 22511; 22512; 22513; 22514; 22515; 22516; 22517; 22518; 22519; 22520; 22521;
    22522; 22523; 22524; 22525; 22526; 22527; 22528; 22529; 22530; 22531; 22532; 22533; 22534; 22535; 22536;
    22537; 22538; 22539; 22540; 22541; 22542; 22543; 22544; 22545; 22546; 22547; 22548; 22549; 22550; 22551;
    22552; 22553; 22554]
  [
    2586; 2585; 2584; 2583; 2582; 2581; 2580; 2579; 2578; 2577; 2576; 2575; 2574; 2573; 2572; 2571; 2570;
    2569; 2568; 2567; 2566; 2565; 2564; 2563; 2562; 2561; 2560; 2559; 2558; 2557; 2556; 2555; 2554; 2553;
    2552; 2551; 2550; 2549; 2548; 2547; 2546; 2545; 2544; 2543; 2542; 2541; 2540; 2539; 2538; 2537; 2536;
    2535; 2534; 2533; 2532; 2531; 2530; 2529; 2528; 2527; 2526; 2525; 2524] 167;
  Srow [
    22303; 22304; 22305; 22306; 22307; 22308; 22309; 22310; 22311; 22312; 22313; 22314; 22315; 22316; 22317;
    22318; 22319; 22320; 22321; 22322; 22323; 22324; 22325; 22326; 22327; 22328; 22329; 22330; 22331; 22332;
    22333; 22334; 22335; 22336; 22337; 22338; 22339; 22340; 22341; 22342; 22343; 22344; 22345; 22346; 22347;
    22348; 22349; 22350; 22351; 22352; 22353; 22354; 22355; 22356; 22357; 22358; 22359; 22360; 22361; 22362;
    22363; 22364; 22365]
  [
    2649; 2648; 2647; 2646; 2645; 2644; 2643; 2642; 2641; 2640; 2639; 2638; 2637; 2636; 2635; 2634; 2633;
    2632; 2631; 2630; 2629; 2628; 2627; 2626; 2625; 2624; 2623; 2622; 2621; 2620; 2619; 2618; 2617; 2616;
    2615; 2614; 2613; 2612; 2611; 2610; 2609; 2608; 2607; 2606; 2605; 2604; 2603; 2602; 2601; 2600; 2599;
    2598; 2597; 2596; 2595; 2594; 2593; 2592; 2591; 2590; 2589; 2588; 2587] 168;
  Srow [
    22114; 22115; 22116; 22117; 22118; 22119; 22120; 22121; 22122; 22123; 22124; 22125; 22126; 22127; 22128;
    22129; 22130; 22131; 22132; 22133; 22134; 22135; 22136; 22137; 22138; 22139; 22140; 22141; 22142; 22143;
    22144; 22145; 22146; 22147; 22148; 22149; 22150; 22151; 22152; 22153; 22154; 22155; 22156; 22157; 22158;
    22159; 22160; 22161; 22162; 22163; 22164; 22165; 22166; 22167; 22168; 22169; 22170; 22171; 22172; 22173;
    22174; 22175; 22176]
  [
    2712; 2711; 2710; 2709; 2708; 2707; 2706; 2705; 2704; 2703; 2702; 2701; 2700; 2699; 2698; 2697; 2696;
    2695; 2694; 2693; 2692; 2691; 2690; 2689; 2688; 2687; 2686; 2685; 2684; 2683; 2682; 2681; 2680; 2679;
    2678; 2677; 2676; 2675; 2674; 2673; 2672; 2671; 2670; 2669; 2668; 2667; 2666; 2665; 2664; 2663; 2662;
    2661; 2660; 2659; 2658; 2657; 2656; 2655; 2654; 2653; 2652; 2651; 2650] 169;
  Srow [
    21925; 21926; 21927; 21928; 21929; 21930; 21931; 21932; 21933; 21934; 21935; 21936; 21937; 21938; 21939;
    21940; 21941; 21942; 21943; 21944; 21945; 21946; 21947; 21948; 21949; 21950; 21951; 21952; 21953; 21954;
    21955; 21956; 21957; 21958; 21959; 21960; 21961; 21962; 21963; 21964; 21965; 21966; 21967; 21968; 21969;
    21970; 21971; 21972; 21973; 21974; 21975; 21976; 21977; 21978; 21979; 21980; 21981; 21982; 21983; 21984;
    21985; 21986; 21987]
  [
    2775; 2774; 2773; 2772; 2771; 2770; 2769; 2768; 2767; 2766; 2765; 2764; 2763; 2762; 2761; 2760; 2759;
    2758; 2757; 2756; 2755; 2754; 2753; 2752; 2751; 2750; 2749; 2748; 2747; 2746; 2745; 2744; 2743; 2742;
    2741; 2740; 2739; 2738; 2737; 2736; 2735; 2734; 2733; 2732; 2731; 2730; 2729; 2728; 2727; 2726; 2725;
    2724; 2723; 2722; 2721; 2720; 2719; 2718; 2717; 2716; 2715; 2714; 2713] 170;
  Srow [
    21736; 21737; 21738; 21739; 21740; 21741; 21742; 21743; 21744; 21745; 21746; 21747; 21748; 21749; 21750;
    21751; 21752; 21753; 21754; 21755; 21756; 21757; 21758; 21759; 21760; 21761; 21762; 21763; 21764; 21765;
    21766; 21767; 21768; 21769; 21770; 21771; 21772; 21773; 21774; 21775; 21776; 21777; 21778; 21779; 21780;
    21781; 21782; 21783; 21784; 21785; 21786; 21787; 21788; 21789; 21790; 21791; 21792; 21793; 21794; 21795;
    21796; 21797; 21798]
  [
    2838; 2837; 2836; 2835; 2834; 2833; 2832; 2831; 2830; 2829; 2828; 2827; 2826; 2825; 2824; 2823; 2822;
    2821; 2820; 2819; 2818; 2817; 2816; 2815; 2814; 2813; 2812; 2811; 2810; 2809; 2808; 2807; 2806; 2805;
    2804; 2803; 2802; 2801; 2800; 2799; 2798; 2797; 2796; 2795; 2794; 2793; 2792; 2791; 2790; 2789; 2788;
    2787; 2786; 2785; 2784; 2783; 2782; 2781; 2780; 2779; 2778; 2777; 2776] 171;
  Srow [
    21547; 21548; 21549; 21550; 21551; 21552; 21553; 21554; 21555; 21556; 21557; 21558; 21559; 21560; 21561;
    21562; 21563; 21564; 21565; 21566; 21567; 21568; 21569; 21570; 21571; 21572; 21573; 21574; 21575; 21576;
    21577; 21578; 21579; 21580; 21581; 21582; 21583; 21584; 21585; 21586; 21587; 21588; 21589; 21590; 21591;
    21592; 21593; 21594; 21595; 21596; 21597; 21598; 21599; 21600; 21601; 21602; 21603; 21604; 21605; 21606;
    21607; 21608; 21609]
  [
    2901; 2900; 2899; 2898; 2897; 2896; 2895; 2894; 2893; 2892; 2891; 2890; 2889; 2888; 2887; 2886; 2885;
    2884; 2883; 2882; 2881; 2880; 2879; 2878; 2877; 2876; 2875; 2874; 2873; 2872; 2871; 2870; 2869; 2868;
    2867; 2866; 2865; 2864; 2863; 2862; 2861; 2860; 2859; 2858; 2857; 2856; 2855; 2854; 2853; 2852; 2851;
    2850; 2849; 2848; 2847; 2846; 2845; 2844; 2843; 2842; 2841; 2840; 2839] 172;
  Srow [
    21358; 21359; 21360; 21361; 21362; 21363; 21364; 21365; 21366; 21367; 21368; 21369; 21370; 21371; 21372;
    21373; 21374; 21375; 21376; 21377; 21378; 21379; 21380; 21381; 21382; 21383; 21384; 21385; 21386; 21387;
    21388; 21389; 21390; 21391; 21392; 21393; 21394; 21395; 21396; 21397; 21398; 21399; 21400; 21401; 21402;
    21403; 21404; 21405; 21406; 21407; 21408; 21409; 21410; 21411; 21412; 21413; 21414; 21415; 21416; 21417;
    21418; 21419; 21420]
  [
    2964; 2963; 2962; 2961; 2960; 2959; 2958; 2957; 2956; 2955; 2954; 2953; 2952; 2951; 2950; 2949; 2948;
    2947; 2946; 2945; 2944; 2943; 2942; 2941; 2940; 2939; 2938; 2937; 2936; 2935; 2934; 2933; 2932; 2931;
    2930; 2929; 2928; 2927; 2926; 2925; 2924; 2923; 2922; 2921; 2920; 2919; 2918; 2917; 2916; 2915; 2914;
    2913; 2912; 2911; 2910; 2909; 2908; 2907; 2906; 2905; 2904; 2903; 2902] 173;
  Srow [
    21169; 21170; 21171; 21172; 21173; 21174; 21175; 21176; 21177; 21178; 21179; 21180; 21181; 21182; 21183;
    21184; 21185; 21186; 21187; 21188; 21189; 21190; 21191; 21192; 21193; 21194; 21195; 21196; 21197; 21198;
    21199; 21200; 21201; 21202; 21203; 21204; 21205; 21206; 21207; 21208; 21209; 21210; 21211; 21212; 21213;
    21214; 21215; 21216; 21217; 21218; 21219; 21220; 21221; 21222; 21223; 21224; 21225; 21226; 21227; 21228;
    21229; 21230; 21231]
  [
    3027; 3026; 3025; 3024; 3023; 3022; 3021; 3020; 3019; 3018; 3017; 3016; 3015; 3014; 3013; 3012; 3011;
    3010; 3009; 3008; 3007; 3006; 3005; 3004; 3003; 3002; 3001; 3000; 2999; 2998; 2997; 2996; 2995; 2994;
    2993; 2992; 2991; 2990; 2989; 2988; 2987; 2986; 2985; 2984; 2983; 2982; 2981; 2980; 2979; 2978; 2977;
    2976; 2975; 2974; 2973; 2972; 2971; 2970; 2969; 2968; 2967; 2966; 2965] 174;
  Srow [
    20980; 20981; 20982; 20983; 20984; 20985; 20986; 20987; 20988; 20989; 20990; 20991; 20992; 20993; 20994;
    20995; 20996; 20997; 20998; 20999; 21000; 21001; 21002; 21003; 21004; 21005; 21006; 21007; 21008; 21009;
    21010; 21011; 21012; 21013; 21014; 21015; 21016; 21017; 21018; 21019; 21020; 21021; 21022; 21023; 21024;
    21025; 21026; 21027; 21028; 21029; 21030; 21031; 21032; 21033; 21034; 21035; 21036; 21037; 21038; 21039;
    21040; 21041; 21042]
  [
    3090; 3089; 3088; 3087; 3086; 3085; 3084; 3083; 3082; 3081; 3080; 3079; 3078; 3077; 3076; 3075; 3074;
    3073; 3072; 3071; 3070; 3069; 3068; 3067; 3066; 3065; 3064; 3063; 3062; 3061; 3060; 3059; 3058; 3057;
    3056; 3055; 3054; 3053; 3052; 3051; 3050; 3049; 3048; 3047; 3046; 3045; 3044; 3043; 3042; 3041; 3040;
    3039; 3038; 3037; 3036; 3035; 3034; 3033; 3032; 3031; 3030; 3029; 3028] 175;
  Srow [
    20791; 20792; 20793; 20794; 20795; 20796; 20797; 20798; 20799; 20800; 20801; 20802; 20803; 20804; 20805;
    20806; 20807; 20808; 20809; 20810; 20811; 20812; 20813; 20814; 20815; 20816; 20817; 20818; 20819; 20820;
    20821; 20822; 20823; 20824; 20825; 20826; 20827; 20828; 20829; 20830; 20831; 20832; 20833; 20834; 20835;
    20836; 20837; 20838; 20839; 20840; 20841; 20842; 20843; 20844; 20845; 20846; 20847; 20848; 20849; 20850;
    20851; 20852; 20853]
  [
    3153; 3152; 3151; 3150; 3149; 3148; 3147; 3146; 3145; 3144; 3143; 3142; 3141; 3140; 3139; 3138; 3137;
    3136; 3135; 3134; 3133; 3132; 3131; 3130; 3129; 3128; 3127; 3126; 3125; 3124; 3123; 3122; 3121; 3120;
    3119; 3118; 3117; 3116; 3115; 3114; 3113; 3112; 3111; 3110; 3109; 3108; 3107; 3106; 3105; 3104; 3103;
    3102; 3101; 3100; 3099; 3098; 3097; 3096; 3095; 3094; 3093; 3092; 3091] 176;
  Srow [
    20602; 20603; 20604; 20605; 20606; 20607; 20608; 20609; 20610; 20611; 20612; 20613; 20614; 20615; 20616;
    20617; 20618; 20619; 20620; 20621; 20622; 20623; 20624; 20625; 20626; 20627; 20628; 20629; 20630; 20631;
    20632; 20633; 20634; 20635; 20636; 20637; 20638; 20639; 20640; 20641; 20642; 20643; 20644; 20645; 20646;
    20647; 20648; 20649; 20650; 20651; 20652; 20653; 20654; 20655; 20656; 20657; 20658; 20659; 20660; 20661;
    20662; 20663; 20664]
  [
    3216; 3215; 3214; 3213; 3212; 3211; 3210; 3209; 3208; 3207; 3206; 3205; 3204; 3203; 3202; 3201; 3200;
    3199; 3198; 3197; 3196; 3195; 3194; 3193; 3192; 3191; 3190; 3189; 3188; 3187; 3186; 3185; 3184; 3183;
    3182; 3181; 3180; 3179; 3178; 3177; 3176; 3175; 3174; 3173; 3172; 3171; 3170; 3169; 3168; 3167; 3166;
    3165; 3164; 3163; 3162; 3161; 3160; 3159; 3158; 3157; 3156; 3155; 3154] 177;
  Srow [
    20413; 20414; 20415; 20416; 20417; 20418; 20419; 20420; 20421; 20422; 20423; 20424; 20425; 20426; 20427;
    20428; 20429; 20430; 20431; 20432; 20433; 20434; 20435; 20436; 20437; 20438; 20439; 20440; 20441; 20442;
    20443; 20444; 20445; 20446; 20447; 20448; 20449; 20450; 20451; 20452; 20453; 20454; 20455; 20456; 20457;
    20458; 20459; 20460; 20461; 20462; 20463; 20464; 20465; 20466; 20467; 20468; 20469; 20470; 20471; 20472;
    20473; 20474; 20475]
  [
    3279; 3278; 3277; 3276; 3275; 3274; 3273; 3272; 3271; 3270; 3269; 3268; 3267; 3266; 3265; 3264; 3263;
    3262; 3261; 3260; 3259; 3258; 3257; 3256; 3255; 3254; 3253; 3252; 3251; 3250; 3249; 3248; 3247; 3246;
    3245; 3244; 3243; 3242; 3241; 3240; 3239; 3238; 3237; 3236; 3235; 3234; 3233; 3232; 3231; 3230; 3229;
    3228; 3227; 3226; 3225; 3224; 3223; 3222; 3221; 3220; 3219; 3218; 3217] 178;
  Srow [
    20224; 20225; 20226; 20227; 20228; 20229; 20230; 20231; 20232; 20233; 20234; 20235; 20236; 20237; 20238;
    20239; 20240; 20241; 20242; 20243; 20244; 20245; 20246; 20247; 20248; 20249; 20250; 20251; 20252; 20253;
    20254; 20255; 20256; 20257; 20258; 20259; 20260; 20261; 20262; 20263; 20264; 20265; 20266; 20267; 20268;
    20269; 20270; 20271; 20272; 20273; 20274; 20275; 20276; 20277; 20278; 20279; 20280; 20281; 20282; 20283;
    20284; 20285; 20286]
  [
    3342; 3341; 3340; 3339; 3338; 3337; 3336; 3335; 3334; 3333; 3332; 3331; 3330; 3329; 3328; 3327; 3326;
    3325; 3324; 3323; 3322; 3321; 3320; 3319; 3318; 3317; 3316; 3315; 3314; 3313; 3312; 3311; 3310; 3309;
    3308; 3307; 3306; 3305; 3304; 3303; 3302; 3301; 3300; 3299; 3298; 3297; 3296; 3295; 3294; 3293; 3292;
    3291; 3290; 3289; 3288; 3287; 3286; 3285; 3284; 3283; 3282; 3281; 3280] 179;
  Srow [
    20035; 20036; 20037; 20038; 20039; 20040; 20041; 20042; 20043; 20044; 20045; 20046; 20047; 20048; 20049;
    20050; 20051; 20052; 20053; 20054; 20055; 20056; 20057; 20058; 20059; 20060; 20061; 20062; 20063; 20064;
    20065; 20066; 20067; 20068; 20069; 20070; 20071; 20072; 20073; 20074; 20075; 20076; 20077; 20078; 20079;
    20080; 20081; 20082; 20083; 20084; 20085; 20086; 20087; 20088; 20089; 20090; 20091; 20092; 20093; 20094;
    20095; 20096; 20097]
  [
    3405; 3404; 3403; 3402; 3401; 3400; 3399; 3398; 3397; 3396; 3395; 3394; 3393; 3392; 3391; 3390; 3389;
    3388; 3387; 3386; 3385; 3384; 3383; 3382; 3381; 3380; 3379; 3378; 3377; 3376; 3375; 3374; 3373; 3372;
    3371; 3370; 3369; 3368; 3367; 3366; 3365; 3364; 3363; 3362; 3361; 3360; 3359; 3358; 3357; 3356; 3355;
    3354; 3353; 3352; 3351; 3350; 3349; 3348; 3347; 3346; 3345; 3344; 3343] 180;
  Srow [
    19846; 19847; 19848; 19849; 19850; 19851; 19852; 19853; 19854; 19855; 19856; 19857; 19858; 19859; 19860;
    19861; 19862; 19863; 19864; 19865; 19866; 19867; 19868; 19869; 19870; 19871; 19872; 19873; 19874; 19875;
    19876; 19877; 19878; 19879; 19880; 19881; 19882; 19883; 19884; 19885; 19886; 19887; 19888; 19889; 19890;
    19891; 19892; 19893; 19894; 19895; 19896; 19897; 19898; 19899; 19900; 19901; 19902; 19903; 19904; 19905;
    19906; 19907; 19908]
  [
    3468; 3467; 3466; 3465; 3464; 3463; 3462; 3461; 3460; 3459; 3458; 3457; 3456; 3455; 3454; 3453; 3452;
    3451; 3450; 3449; 3448; 3447; 3446; 3445; 3444; 3443; 3442; 3441; 3440; 3439; 3438; 3437; 3436; 3435;
    3434; 3433; 3432; 3431; 3430; 3429; 3428; 3427; 3426; 3425; 3424; 3423; 3422; 3421; 3420; 3419; 3418;
    3417; 3416; 3415; 3414; 3413; 3412; 3411; 3410; 3409; 3408; 3407; 3406] 181;
  Srow [
    19657; 19658; 19659; 19660; 19661; 19662; 19663; 19664; 19665; 19666; 19667; 19668; 19669; 19670; 19671;
    19672; 19673; 19674; 19675; 19676; 19677; 19678; 19679; 19680; 19681; 19682; 19683; 19684; 19685; 19686;
    19687; 19688; 19689; 19690; 19691; 19692; 19693; 19694; 19695; 19696; 19697; 19698; 19699; 19700; 19701;
    19702; 19703; 19704; 19705; 19706; 19707; 19708; 19709; 19710; 19711; 19712; 19713; 19714; 19715; 19716;
    19717; 19718; 19719]
  [
    3531; 3530; 3529; 3528; 3527; 3526; 3525; 3524; 3523; 3522; 3521; 3520; 3519; 3518; 3517; 3516; 3515;
    3514; 3513; 3512; 3511; 3510; 3509; 3508; 3507; 3506; 3505; 3504; 3503; 3502; 3501; 3500; 3499; 3498;
    3497; 3496; 3495; 3494; 3493; 3492; 3491; 3490; 3489; 3488; 3487; 3486; 3485; 3484; 3483; 3482; 3481;
    3480; 3479; 3478; 3477; 3476; 3475; 3474; 3473; 3472; 3471; 3470; 3469] 182;
  Srow [
    19468; 19469; 19470; 19471; 19472; 19473; 19474; 19475; 19476; 19477; 19478; 19479; 19480; 19481; 19482;
    19483; 19484; 19485; 19486; 19487; 19488; 19489; 19490; 19491; 19492; 19493; 19494; 19495; 19496; 19497;
    19498; 19499; 19500; 19501; 19502; 19503; 19504; 19505; 19506; 19507; 19508; 19509; 19510; 19511; 19512;
    19513; 19514; 19515; 19516; 19517; 19518; 19519; 19520; 19521; 19522; 19523; 19524; 19525; 19526; 19527;
    19528; 19529; 19530]
  [
    3594; 3593; 3592; 3591; 3590; 3589; 3588; 3587; 3586; 3585; 3584; 3583; 3582; 3581; 3580; 3579; 3578;
    3577; 3576; 3575; 3574; 3573; 3572; 3571; 3570; 3569; 3568; 3567; 3566; 3565; 3564; 3563; 3562; 3561;
    3560; 3559; 3558; 3557; 3556; 3555; 3554; 3553; 3552; 3551; 3550; 3549; 3548; 3547; 3546; 3545; 3544;
    3543; 3542; 3541; 3540; 3539; 3538; 3537; 3536; 3535; 3534; 3533; 3532] 183;
  Srow [
    19279; 19280; 19281; 19282; 19283; 19284; 19285; 19286; 19287; 19288; 19289; 19290; 19291; 19292; 19293;
    19294; 19295; 19296; 19297; 19298; 19299; 19300; 19301; 19302; 19303; 19304; 19305; 19306; 19307; 19308;
    19309; 19310; 19311; 19312; 19313; 19314; 19315; 19316; 19317; 19318; 19319; 19320; 19321; 19322; 19323;
    19324; 19325; 19326; 19327; 19328; 19329; 19330; 19331; 19332; 19333; 19334; 19335; 19336; 19337; 19338;
    19339; 19340; 19341]
  [
    3657; 3656; 3655; 3654; 3653; 3652; 3651; 3650; 3649; 3648; 3647; 3646; 3645; 3644; 3643; 3642; 3641;
    3640; 3639; 3638; 3637; 3636; 3635; 3634; 3633; 3632; 3631; 3630; 3629; 3628; 3627; 3626; 3625; 3624;
    3623; 3622; 3621; 3620; 3619; 3618; 3617; 3616; 3615; 3614; 3613; 3612; 3611; 3610; 3609; 3608; 3607;
    3606; 3605; 3604; 3603; 3602; 3601; 3600; 3599; 3598; 3597; 3596; 3595] 184;
  Srow [
    19090; 19091; 19092; 19093; 19094; 19095; 19096; 19097; 19098; 19099; 19100; 19101; 19102; 19103; 19104;
    19105; 19106; 19107; 19108; 19109; 19110; 19111; 19112; 19113; 19114; 19115; 19116; 19117; 19118; 19119;
    19120; 19121; 19122; 19123; 19124; 19125; 19126; 19127; 19128; 19129; 19130; 19131; 19132; 19133; 19134;
    19135; 19136; 19137; 19138; 19139; 19140; 19141; 19142; 19143; 19144; 19145; 19146; 19147; 19148; 19149;
    19150; 19151; 19152]
  [
    3720; 3719; 3718; 3717; 3716; 3715; 3714; 3713; 3712; 3711; 3710; 3709; 3708; 3707; 3706; 3705; 3704;
    3703; 3702; 3701; 3700; 3699; 3698; 3697; 3696; 3695; 3694; 3693; 3692; 3691; 3690; 3689; 3688; 3687;
    3686; 3685; 3684; 3683; 3682; 3681; 3680; 3679; 3678; 3677; 3676; 3675; 3674; 3673; 3672; 3671; 3670;
    3669; 3668; 3667; 3666; 3665; 3664; 3663; 3662; 3661; 3660; 3659; 3658] 185;
  Srow [
    18901; 18902; 18903; 18904; 18905; 18906; 18907; 18908; 18909; 18910; 18911; 18912; 18913; 18914; 18915;
    18916; 18917; 18918; 18919; 18920; 18921; 18922; 18923; 18924; 18925; 18926; 18927; 18928; 18929; 18930;
    18931; 18932; 18933; 18934; 18935; 18936; 18937; 18938; 18939; 18940; 18941; 18942; 18943; 18944; 18945;
    18946; 18947; 18948; 18949; 18950; 18951; 18952; 18953; 18954; 18955; 18956; 18957; 18958; 18959; 18960;
    18961; 18962; 18963]
  [
    3783; 3782; 3781; 3780; 3779; 3778; 3777; 3776; 3775; 3774; 3773; 3772; 3771; 3770; 3769; 3768; 3767;
    3766; 3765; 3764; 3763; 3762; 3761; 3760; 3759; 3758; 3757; 3756; 3755; 3754; 3753; 3752; 3751; 3750;
    3749; 3748; 3747; 3746; 3745; 3744; 3743; 3742; 3741; 3740; 3739; 3738; 3737; 3736; 3735; 3734; 3733;
    3732; 3731; 3730; 3729; 3728; 3727; 3726; 3725; 3724; 3723; 3722; 3721] 186;
  Srow [
    18712; 18713; 18714; 18715; 18716; 18717; 18718; 18719; 18720; 18721; 18722; 18723; 18724; 18725; 18726;
    18727; 18728; 18729; 18730; 18731; 18732; 18733; 18734; 18735; 18736; 18737; 18738; 18739; 18740; 18741;
    18742; 18743; 18744; 18745; 18746; 18747; 18748; 18749; 18750; 18751; 18752; 18753; 18754; 18755; 18756;
    18757; 18758; 18759; 18760; 18761; 18762; 18763; 18764; 18765; 18766; 18767; 18768; 18769; 18770; 18771;
    18772; 18773; 18774]
  [
    3846; 3845; 3844; 3843; 3842; 3841; 3840; 3839; 3838; 3837; 3836; 3835; 3834; 3833; 3832; 3831; 3830;
    3829; 3828; 3827; 3826; 3825; 3824; 3823; 3822; 3821; 3820; 3819; 3818; 3817; 3816; 3815; 3814; 3813;
    3812; 3811; 3810; 3809; 3808; 3807; 3806; 3805; 3804; 3803; 3802; 3801; 3800; 3799; 3798; 3797; 3796;
    3795; 3794; 3793; 3792; 3791; 3790; 3789; 3788; 3787; 3786; 3785; 3784] 187;
  Srow [
    18523; 18524; 18525; 18526; 18527; 18528; 18529; 18530; 18531; 18532; 18533; 18534; 18535; 18536; 18537;
    18538; 18539; 18540; 18541; 18542; 18543; 18544; 18545; 18546; 18547; 18548; 18549; 18550; 18551; 18552;
    18553; 18554; 18555; 18556; 18557; 18558; 18559; 18560; 18561; 18562; 18563; 18564; 18565; 18566; 18567;
    18568; 18569; 18570; 18571; 18572; 18573; 18574; 18575; 18576; 18577; 18578; 18579; 18580; 18581; 18582;
    18583; 18584; 18585]
  [
    3909; 3908; 3907; 3906; 3905; 3904; 3903; 3902; 3901; 3900; 3899; 3898; 3897; 3896; 3895; 3894; 3893;
    3892; 3891; 3890; 3889; 3888; 3887; 3886; 3885; 3884; 3883; 3882; 3881; 3880; 3879; 3878; 3877; 3876;
    3875; 3874; 3873; 3872; 3871; 3870; 3869; 3868; 3867; 3866; 3865; 3864; 3863; 3862; 3861; 3860; 3859;
    3858; 3857; 3856; 3855; 3854; 3853; 3852; 3851; 3850; 3849; 3848; 3847] 188;
  Srow [
    18334; 18335; 18336; 18337; 18338; 18339; 18340; 18341; 18342; 18343; 18344; 18345; 18346; 18347; 18348;
    18349; 18350; 18351; 18352; 18353; 18354; 18355; 18356; 18357; 18358; 18359; 18360; 18361; 18362; 18363;
    18364; 18365; 18366; 18367; 18368; 18369; 18370; 18371; 18372; 18373; 18374; 18375; 18376; 18377; 18378;
    18379; 18380; 18381; 18382; 18383; 18384; 18385; 18386; 18387; 18388; 18389; 18390; 18391; 18392; 18393;
    18394; 18395; 18396]
  [
    3972; 3971; 3970; 3969; 3968; 3967; 3966; 3965; 3964; 3963; 3962; 3961; 3960; 3959; 3958; 3957; 3956;
    3955; 3954; 3953; 3952; 3951; 3950; 3949; 3948; 3947; 3946; 3945; 3944; 3943; 3942; 3941; 3940; 3939;
    3938; 3937; 3936; 3935; 3934; 3933; 3932; 3931; 3930; 3929; 3928; 3927; 3926; 3925; 3924; 3923; 3922;
    3921; 3920; 3919; 3918; 3917; 3916; 3915; 3914; 3913; 3912; 3911; 3910] 189;
  Srow [
    18145; 18146; 18147; 18148; 18149; 18150; 18151; 18152; 18153; 18154; 18155; 18156; 18157; 18158; 18159;
    18160; 18161; 18162; 18163; 18164; 18165; 18166; 18167; 18168; 18169; 18170; 18171; 18172; 18173; 18174;
    18175; 18176; 18177; 18178; 18179; 18180; 18181; 18182; 18183; 18184; 18185; 18186; 18187; 18188; 18189;
    18190; 18191; 18192; 18193; 18194; 18195; 18196; 18197; 18198; 18199; 18200; 18201; 18202; 18203; 18204;
    18205; 18206; 18207]
  [
    4035; 4034; 4033; 4032; 4031; 4030; 4029; 4028; 4027; 4026; 4025; 4024; 4023; 4022; 4021; 4020; 4019;
    4018; 4017; 4016; 4015; 4014; 4013; 4012; 4011; 4010; 4009; 4008; 4007; 4006; 4005; 4004; 4003; 4002;
    4001; 4000; 3999; 3998; 3997; 3996; 3995; 3994; 3993; 3992; 3991; 3990; 3989; 3988; 3987; 3986; 3985;
    3984; 3983; 3982; 3981; 3980; 3979; 3978; 3977; 3976; 3975; 3974; 3973] 190;
  Srow [
    17956; 17957; 17958; 17959; 17960; 17961; 17962; 17963; 17964; 17965; 17966; 17967; 17968; 17969; 17970;
    17971; 17972; 17973; 17974; 17975; 17976; 17977; 17978; 17979; 17980; 17981; 17982; 17983; 17984; 17985;
    17986; 17987; 17988; 17989; 17990; 17991; 17992; 17993; 17994; 17995; 17996; 17997; 17998; 17999; 18000;
    18001; 18002; 18003; 18004; 18005; 18006; 18007; 18008; 18009; 18010; 18011; 18012; 18013; 18014; 18015;
    18016; 18017; 18018]
  [
    4098; 4097; 4096; 4095; 4094; 4093; 4092; 4091; 4090; 4089; 4088; 4087; 4086; 4085; 4084; 4083; 4082;
    4081; 4080; 4079; 4078; 4077; 4076; 4075; 4074; 4073; 4072; 4071; 4070; 4069; 4068; 4067; 4066; 4065;
    4064; 4063; 4062; 4061; 4060; 4059; 4058; 4057; 4056; 4055; 4054; 4053; 4052; 4051; 4050; 4049; 4048;
    4047; 4046; 4045; 4044; 4043; 4042; 4041; 4040; 4039; 4038; 4037; 4036] 191;
  Srow [
    17767; 17768; 17769; 17770; 17771; 17772; 17773; 17774; 17775; 17776; 17777; 17778; 17779; 17780; 17781;
    17782; 17783; 17784; 17785; 17786; 17787; 17788; 17789; 17790; 17791; 17792; 17793; 17794; 17795; 17796;
    17797; 17798; 17799; 17800; 17801; 17802; 17803; 17804; 17805; 17806; 17807; 17808; 17809; 17810; 17811;
    17812; 17813; 17814; 17815; 17816; 17817; 17818; 17819; 17820; 17821; 17822; 17823; 17824; 17825; 17826;
    17827; 17828; 17829]
  [
    4161; 4160; 4159; 4158; 4157; 4156; 4155; 4154; 4153; 4152; 4151; 4150; 4149; 4148; 4147; 4146; 4145;
    4144; 4143; 4142; 4141; 4140; 4139; 4138; 4137; 4136; 4135; 4134; 4133; 4132; 4131; 4130; 4129; 4128;
    4127; 4126; 4125; 4124; 4123; 4122; 4121; 4120; 4119; 4118; 4117; 4116; 4115; 4114; 4113; 4112; 4111;
    4110; 4109; 4108; 4107; 4106; 4105; 4104; 4103; 4102; 4101; 4100; 4099] 192;
  Srow [
    17641; 17642; 17643; 17644; 17645; 17646; 17647; 17648; 17649; 17650; 17651; 17652; 17653; 17654; 17655;
    17656; 17657; 17658; 17659; 17660; 17661; 17662; 17663; 17664; 17665; 17666; 17667; 17668; 17669; 17670;
    17671; 17672; 17673; 17674; 17675; 17676; 17677; 17678; 17679; 17680; 17681; 17682; 17683; 17684; 17685;
    17686; 17687; 17688; 17689; 17690; 17691; 17692; 17693; 17694; 17695; 17696; 17697; 17698; 17699; 17700;
    17701; 17702; 17703]
  [] 4162].
