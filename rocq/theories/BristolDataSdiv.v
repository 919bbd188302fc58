(** Generated: circuit files of yacl/io/circuit/data, line by line. *)
From Coq Require Import String List.
Import ListNotations.
Open Scope string_scope.

Definition divide64_file : list string := [
"29926 30054";
"2 64 64";
"1 64";
"";
"1 1 62 17197 INV";
"1 1 61 17196 INV";
"1 1 60 17195 INV";
"1 1 59 17194 INV";
"1 1 58 17193 INV";
"1 1 57 17192 INV";
"1 1 56 17191 INV";
"1 1 55 17190 INV";
"1 1 54 17189 INV";
"1 1 53 17188 INV";
"1 1 52 17187 INV";
"1 1 51 17186 INV";
"1 1 50 17185 INV";
"1 1 49 17184 INV";
"1 1 48 17183 INV";
"1 1 47 17182 INV";
"1 1 46 17181 INV";
"1 1 45 17180 INV";
"1 1 44 17179 INV";
"1 1 43 17178 INV";
"1 1 42 17177 INV";
"1 1 41 17176 INV";
"1 1 40 17175 INV";
"1 1 39 17174 INV";
"1 1 38 17173 INV";
"1 1 37 17172 INV";
"1 1 36 17171 INV";
"1 1 35 17170 INV";
"1 1 34 17169 INV";
"1 1 33 17168 INV";
"1 1 32 17167 INV";
"1 1 31 17166 INV";
"1 1 30 17165 INV";
"1 1 29 17164 INV";
"1 1 28 17163 INV";
"1 1 27 17162 INV";
"1 1 26 17161 INV";
"1 1 25 17160 INV";
"1 1 24 17159 INV";
"1 1 23 17158 INV";
"1 1 22 17157 INV";
"1 1 21 17156 INV";
"1 1 20 17155 INV";
"1 1 19 17154 INV";
"1 1 18 17153 INV";
"1 1 17 17152 INV";
"1 1 16 17151 INV";
"1 1 15 17150 INV";
"1 1 14 17149 INV";
"1 1 13 17148 INV";
"1 1 12 17147 INV";
"1 1 11 17146 INV";
"1 1 10 17145 INV";
"1 1 9 17144 INV";
"1 1 8 17143 INV";
"1 1 7 17142 INV";
"1 1 6 17141 INV";
"1 1 5 17140 INV";
"1 1 4 17139 INV";
"1 1 3 17138 INV";
"1 1 2 17137 INV";
"1 1 1 17136 INV";
"1 1 0 17135 INV";
"2 1 1 17135 17072 XOR";
"1 1 17072 16756 INV";
"2 1 17136 17135 4286 XOR";
"2 1 4286 17135 4285 AND";
"2 1 4285 17135 17010 XOR";
"2 1 2 17010 17073 XOR";
"1 1 17073 16757 INV";
"2 1 17137 17010 4284 XOR";
"2 1 4284 17010 4283 AND";
"2 1 4283 17010 17011 XOR";
"2 1 3 17011 17074 XOR";
"1 1 17074 16758 INV";
"2 1 17138 17011 4282 XOR";
"2 1 4282 17011 4281 AND";
"2 1 4281 17011 17012 XOR";
"2 1 4 17012 17075 XOR";
"1 1 17075 16759 INV";
"2 1 17139 17012 4280 XOR";
"2 1 4280 17012 4279 AND";
"2 1 4279 17012 17013 XOR";
"2 1 5 17013 17076 XOR";
"1 1 17076 16760 INV";
"2 1 17140 17013 4278 XOR";
"2 1 4278 17013 4277 AND";
"2 1 4277 17013 17014 XOR";
"2 1 6 17014 17077 XOR";
"1 1 17077 16761 INV";
"2 1 17141 17014 4276 XOR";
"2 1 4276 17014 4275 AND";
"2 1 4275 17014 17015 XOR";
"2 1 7 17015 17078 XOR";
"1 1 17078 16762 INV";
"2 1 17142 17015 4274 XOR";
"2 1 4274 17015 4273 AND";
"2 1 4273 17015 17016 XOR";
"2 1 8 17016 17079 XOR";
"1 1 17079 16763 INV";
"2 1 17143 17016 4272 XOR";
"2 1 4272 17016 4271 AND";
"2 1 4271 17016 17017 XOR";
"2 1 9 17017 17080 XOR";
"1 1 17080 16764 INV";
"2 1 17144 17017 4270 XOR";
"2 1 4270 17017 4269 AND";
"2 1 4269 17017 17018 XOR";
"2 1 10 17018 17081 XOR";
"1 1 17081 16765 INV";
"2 1 17145 17018 4268 XOR";
"2 1 4268 17018 4267 AND";
"2 1 4267 17018 17019 XOR";
"2 1 11 17019 17082 XOR";
"1 1 17082 16766 INV";
"2 1 17146 17019 4266 XOR";
"2 1 4266 17019 4265 AND";
"2 1 4265 17019 17020 XOR";
"2 1 12 17020 17083 XOR";
"1 1 17083 16767 INV";
"2 1 17147 17020 4264 XOR";
"2 1 4264 17020 4263 AND";
"2 1 4263 17020 17021 XOR";
"2 1 13 17021 17084 XOR";
"1 1 17084 16768 INV";
"2 1 17148 17021 4262 XOR";
"2 1 4262 17021 4261 AND";
"2 1 4261 17021 17022 XOR";
"2 1 14 17022 17085 XOR";
"1 1 17085 16769 INV";
"2 1 17149 17022 4260 XOR";
"2 1 4260 17022 4259 AND";
"2 1 4259 17022 17023 XOR";
"2 1 15 17023 17086 XOR";
"1 1 17086 16770 INV";
"2 1 17150 17023 4258 XOR";
"2 1 4258 17023 4257 AND";
"2 1 4257 17023 17024 XOR";
"2 1 16 17024 17087 XOR";
"1 1 17087 16771 INV";
"2 1 17151 17024 4256 XOR";
"2 1 4256 17024 4255 AND";
"2 1 4255 17024 17025 XOR";
"2 1 17 17025 17088 XOR";
"1 1 17088 16772 INV";
"2 1 17152 17025 4254 XOR";
"2 1 4254 17025 4253 AND";
"2 1 4253 17025 17026 XOR";
"2 1 18 17026 17089 XOR";
"1 1 17089 16773 INV";
"2 1 17153 17026 4252 XOR";
"2 1 4252 17026 4251 AND";
"2 1 4251 17026 17027 XOR";
"2 1 19 17027 17090 XOR";
"1 1 17090 16774 INV";
"2 1 17154 17027 4250 XOR";
"2 1 4250 17027 4249 AND";
"2 1 4249 17027 17028 XOR";
"2 1 20 17028 17091 XOR";
"1 1 17091 16775 INV";
"2 1 17155 17028 4248 XOR";
"2 1 4248 17028 4247 AND";
"2 1 4247 17028 17029 XOR";
"2 1 21 17029 17092 XOR";
"1 1 17092 16776 INV";
"2 1 17156 17029 4246 XOR";
"2 1 4246 17029 4245 AND";
"2 1 4245 17029 17030 XOR";
"2 1 22 17030 17093 XOR";
"1 1 17093 16777 INV";
"2 1 17157 17030 4244 XOR";
"2 1 4244 17030 4243 AND";
"2 1 4243 17030 17031 XOR";
"2 1 23 17031 17094 XOR";
"1 1 17094 16778 INV";
"2 1 17158 17031 4242 XOR";
"2 1 4242 17031 4241 AND";
"2 1 4241 17031 17032 XOR";
"2 1 24 17032 17095 XOR";
"1 1 17095 16779 INV";
"2 1 17159 17032 4240 XOR";
"2 1 4240 17032 4239 AND";
"2 1 4239 17032 17033 XOR";
"2 1 25 17033 17096 XOR";
"1 1 17096 16780 INV";
"2 1 17160 17033 4238 XOR";
"2 1 4238 17033 4237 AND";
"2 1 4237 17033 17034 XOR";
"2 1 26 17034 17097 XOR";
"1 1 17097 16781 INV";
"2 1 17161 17034 4236 XOR";
"2 1 4236 17034 4235 AND";
"2 1 4235 17034 17035 XOR";
"2 1 27 17035 17098 XOR";
"1 1 17098 16782 INV";
"2 1 17162 17035 4234 XOR";
"2 1 4234 17035 4233 AND";
"2 1 4233 17035 17036 XOR";
"2 1 28 17036 17099 XOR";
"1 1 17099 16783 INV";
"2 1 17163 17036 4232 XOR";
"2 1 4232 17036 4231 AND";
"2 1 4231 17036 17037 XOR";
"2 1 29 17037 17100 XOR";
"1 1 17100 16784 INV";
"2 1 17164 17037 4230 XOR";
"2 1 4230 17037 4229 AND";
"2 1 4229 17037 17038 XOR";
"2 1 30 17038 17101 XOR";
"1 1 17101 16785 INV";
"2 1 17165 17038 4228 XOR";
"2 1 4228 17038 4227 AND";
"2 1 4227 17038 17039 XOR";
"2 1 31 17039 17102 XOR";
"1 1 17102 16786 INV";
"2 1 17166 17039 4226 XOR";
"2 1 4226 17039 4225 AND";
"2 1 4225 17039 17040 XOR";
"2 1 32 17040 17103 XOR";
"1 1 17103 16787 INV";
"2 1 17167 17040 4224 XOR";
"2 1 4224 17040 4223 AND";
"2 1 4223 17040 17041 XOR";
"2 1 33 17041 17104 XOR";
"1 1 17104 16788 INV";
"2 1 17168 17041 4222 XOR";
"2 1 4222 17041 4221 AND";
"2 1 4221 17041 17042 XOR";
"2 1 34 17042 17105 XOR";
"1 1 17105 16789 INV";
"2 1 17169 17042 4220 XOR";
"2 1 4220 17042 4219 AND";
"2 1 4219 17042 17043 XOR";
"2 1 35 17043 17106 XOR";
"1 1 17106 16790 INV";
"2 1 17170 17043 4218 XOR";
"2 1 4218 17043 4217 AND";
"2 1 4217 17043 17044 XOR";
"2 1 36 17044 17107 XOR";
"1 1 17107 16791 INV";
"2 1 17171 17044 4216 XOR";
"2 1 4216 17044 4215 AND";
"2 1 4215 17044 17045 XOR";
"2 1 37 17045 17108 XOR";
"1 1 17108 16792 INV";
"2 1 17172 17045 4214 XOR";
"2 1 4214 17045 4213 AND";
"2 1 4213 17045 17046 XOR";
"2 1 38 17046 17109 XOR";
"1 1 17109 16793 INV";
"2 1 17173 17046 4212 XOR";
"2 1 4212 17046 4211 AND";
"2 1 4211 17046 17047 XOR";
"2 1 39 17047 17110 XOR";
"1 1 17110 16794 INV";
"2 1 17174 17047 4210 XOR";
"2 1 4210 17047 4209 AND";
"2 1 4209 17047 17048 XOR";
"2 1 40 17048 17111 XOR";
"1 1 17111 16795 INV";
"2 1 17175 17048 4208 XOR";
"2 1 4208 17048 4207 AND";
"2 1 4207 17048 17049 XOR";
"2 1 41 17049 17112 XOR";
"1 1 17112 16796 INV";
"2 1 17176 17049 4206 XOR";
"2 1 4206 17049 4205 AND";
"2 1 4205 17049 17050 XOR";
"2 1 42 17050 17113 XOR";
"1 1 17113 16797 INV";
"2 1 17177 17050 4204 XOR";
"2 1 4204 17050 4203 AND";
"2 1 4203 17050 17051 XOR";
"2 1 43 17051 17114 XOR";
"1 1 17114 16798 INV";
"2 1 17178 17051 4202 XOR";
"2 1 4202 17051 4201 AND";
"2 1 4201 17051 17052 XOR";
"2 1 44 17052 17115 XOR";
"1 1 17115 16799 INV";
"2 1 17179 17052 4200 XOR";
"2 1 4200 17052 4199 AND";
"2 1 4199 17052 17053 XOR";
"2 1 45 17053 17116 XOR";
"1 1 17116 16800 INV";
"2 1 17180 17053 4198 XOR";
"2 1 4198 17053 4197 AND";
"2 1 4197 17053 17054 XOR";
"2 1 46 17054 17117 XOR";
"1 1 17117 16801 INV";
"2 1 17181 17054 4196 XOR";
"2 1 4196 17054 4195 AND";
"2 1 4195 17054 17055 XOR";
"2 1 47 17055 17118 XOR";
"1 1 17118 16802 INV";
"2 1 17182 17055 4194 XOR";
"2 1 4194 17055 4193 AND";
"2 1 4193 17055 17056 XOR";
"2 1 48 17056 17119 XOR";
"1 1 17119 16803 INV";
"2 1 17183 17056 4192 XOR";
"2 1 4192 17056 4191 AND";
"2 1 4191 17056 17057 XOR";
"2 1 49 17057 17120 XOR";
"1 1 17120 16804 INV";
"2 1 17184 17057 4190 XOR";
"2 1 4190 17057 4189 AND";
"2 1 4189 17057 17058 XOR";
"2 1 50 17058 17121 XOR";
"1 1 17121 16805 INV";
"2 1 17185 17058 4188 XOR";
"2 1 4188 17058 4187 AND";
"2 1 4187 17058 17059 XOR";
"2 1 51 17059 17122 XOR";
"1 1 17122 16806 INV";
"2 1 17186 17059 4186 XOR";
"2 1 4186 17059 4185 AND";
"2 1 4185 17059 17060 XOR";
"2 1 52 17060 17123 XOR";
"1 1 17123 16807 INV";
"2 1 17187 17060 4184 XOR";
"2 1 4184 17060 4183 AND";
"2 1 4183 17060 17061 XOR";
"2 1 53 17061 17124 XOR";
"1 1 17124 16808 INV";
"2 1 17188 17061 4182 XOR";
"2 1 4182 17061 4181 AND";
"2 1 4181 17061 17062 XOR";
"2 1 54 17062 17125 XOR";
"1 1 17125 16809 INV";
"2 1 17189 17062 4180 XOR";
"2 1 4180 17062 4179 AND";
"2 1 4179 17062 17063 XOR";
"2 1 55 17063 17126 XOR";
"1 1 17126 16810 INV";
"2 1 17190 17063 4178 XOR";
"2 1 4178 17063 4177 AND";
"2 1 4177 17063 17064 XOR";
"2 1 56 17064 17127 XOR";
"1 1 17127 16811 INV";
"2 1 17191 17064 4176 XOR";
"2 1 4176 17064 4175 AND";
"2 1 4175 17064 17065 XOR";
"2 1 57 17065 17128 XOR";
"1 1 17128 16812 INV";
"2 1 17192 17065 4174 XOR";
"2 1 4174 17065 4173 AND";
"2 1 4173 17065 17066 XOR";
"2 1 58 17066 17129 XOR";
"1 1 17129 16813 INV";
"2 1 17193 17066 4172 XOR";
"2 1 4172 17066 4171 AND";
"2 1 4171 17066 17067 XOR";
"2 1 59 17067 17130 XOR";
"1 1 17130 16814 INV";
"2 1 17194 17067 4170 XOR";
"2 1 4170 17067 4169 AND";
"2 1 4169 17067 17068 XOR";
"2 1 60 17068 17131 XOR";
"1 1 17131 16815 INV";
"2 1 17195 17068 4168 XOR";
"2 1 4168 17068 4167 AND";
"2 1 4167 17068 17069 XOR";
"2 1 61 17069 17132 XOR";
"1 1 17132 16816 INV";
"2 1 17196 17069 4166 XOR";
"2 1 4166 17069 4165 AND";
"2 1 4165 17069 17070 XOR";
"2 1 62 17070 17133 XOR";
"1 1 17133 16817 INV";
"2 1 17197 17070 4164 XOR";
"2 1 4164 17070 4163 AND";
"2 1 4163 17070 17071 XOR";
"2 1 63 17071 17134 XOR";
"1 1 17134 16818 INV";
"1 1 63 4287 INV";
"2 1 0 63 17262 AND";
"2 1 0 4287 17198 AND";
"2 1 17262 17198 16819 XOR";
"2 1 16756 63 17263 AND";
"2 1 1 4287 17199 AND";
"2 1 17263 17199 16820 XOR";
"2 1 16757 63 17264 AND";
"2 1 2 4287 17200 AND";
"2 1 17264 17200 16821 XOR";
"2 1 16758 63 17265 AND";
"2 1 3 4287 17201 AND";
"2 1 17265 17201 16822 XOR";
"2 1 16759 63 17266 AND";
"2 1 4 4287 17202 AND";
"2 1 17266 17202 16823 XOR";
"2 1 16760 63 17267 AND";
"2 1 5 4287 17203 AND";
"2 1 17267 17203 16824 XOR";
"2 1 16761 63 17268 AND";
"2 1 6 4287 17204 AND";
"2 1 17268 17204 16825 XOR";
"2 1 16762 63 17269 AND";
"2 1 7 4287 17205 AND";
"2 1 17269 17205 16826 XOR";
"2 1 16763 63 17270 AND";
"2 1 8 4287 17206 AND";
"2 1 17270 17206 16827 XOR";
"2 1 16764 63 17271 AND";
"2 1 9 4287 17207 AND";
"2 1 17271 17207 16828 XOR";
"2 1 16765 63 17272 AND";
"2 1 10 4287 17208 AND";
"2 1 17272 17208 16829 XOR";
"2 1 16766 63 17273 AND";
"2 1 11 4287 17209 AND";
"2 1 17273 17209 16830 XOR";
"2 1 16767 63 17274 AND";
"2 1 12 4287 17210 AND";
"2 1 17274 17210 16831 XOR";
"2 1 16768 63 17275 AND";
"2 1 13 4287 17211 AND";
"2 1 17275 17211 16832 XOR";
"2 1 16769 63 17276 AND";
"2 1 14 4287 17212 AND";
"2 1 17276 17212 16833 XOR";
"2 1 16770 63 17277 AND";
"2 1 15 4287 17213 AND";
"2 1 17277 17213 16834 XOR";
"2 1 16771 63 17278 AND";
"2 1 16 4287 17214 AND";
"2 1 17278 17214 16835 XOR";
"2 1 16772 63 17279 AND";
"2 1 17 4287 17215 AND";
"2 1 17279 17215 16836 XOR";
"2 1 16773 63 17280 AND";
"2 1 18 4287 17216 AND";
"2 1 17280 17216 16837 XOR";
"2 1 16774 63 17281 AND";
"2 1 19 4287 17217 AND";
"2 1 17281 17217 16838 XOR";
"2 1 16775 63 17282 AND";
"2 1 20 4287 17218 AND";
"2 1 17282 17218 16839 XOR";
"2 1 16776 63 17283 AND";
"2 1 21 4287 17219 AND";
"2 1 17283 17219 16840 XOR";
"2 1 16777 63 17284 AND";
"2 1 22 4287 17220 AND";
"2 1 17284 17220 16841 XOR";
"2 1 16778 63 17285 AND";
"2 1 23 4287 17221 AND";
"2 1 17285 17221 16842 XOR";
"2 1 16779 63 17286 AND";
"2 1 24 4287 17222 AND";
"2 1 17286 17222 16843 XOR";
"2 1 16780 63 17287 AND";
"2 1 25 4287 17223 AND";
"2 1 17287 17223 16844 XOR";
"2 1 16781 63 17288 AND";
"2 1 26 4287 17224 AND";
"2 1 17288 17224 16845 XOR";
"2 1 16782 63 17289 AND";
"2 1 27 4287 17225 AND";
"2 1 17289 17225 16846 XOR";
"2 1 16783 63 17290 AND";
"2 1 28 4287 17226 AND";
"2 1 17290 17226 16847 XOR";
"2 1 16784 63 17291 AND";
"2 1 29 4287 17227 AND";
"2 1 17291 17227 16848 XOR";
"2 1 16785 63 17292 AND";
"2 1 30 4287 17228 AND";
"2 1 17292 17228 16849 XOR";
"2 1 16786 63 17293 AND";
"2 1 31 4287 17229 AND";
"2 1 17293 17229 16850 XOR";
"2 1 16787 63 17294 AND";
"2 1 32 4287 17230 AND";
"2 1 17294 17230 16851 XOR";
"2 1 16788 63 17295 AND";
"2 1 33 4287 17231 AND";
"2 1 17295 17231 16852 XOR";
"2 1 16789 63 17296 AND";
"2 1 34 4287 17232 AND";
"2 1 17296 17232 16853 XOR";
"2 1 16790 63 17297 AND";
"2 1 35 4287 17233 AND";
"2 1 17297 17233 16854 XOR";
"2 1 16791 63 17298 AND";
"2 1 36 4287 17234 AND";
"2 1 17298 17234 16855 XOR";
"2 1 16792 63 17299 AND";
"2 1 37 4287 17235 AND";
"2 1 17299 17235 16856 XOR";
"2 1 16793 63 17300 AND";
"2 1 38 4287 17236 AND";
"2 1 17300 17236 16857 XOR";
"2 1 16794 63 17301 AND";
"2 1 39 4287 17237 AND";
"2 1 17301 17237 16858 XOR";
"2 1 16795 63 17302 AND";
"2 1 40 4287 17238 AND";
"2 1 17302 17238 16859 XOR";
"2 1 16796 63 17303 AND";
"2 1 41 4287 17239 AND";
"2 1 17303 17239 16860 XOR";
"2 1 16797 63 17304 AND";
"2 1 42 4287 17240 AND";
"2 1 17304 17240 16861 XOR";
"2 1 16798 63 17305 AND";
"2 1 43 4287 17241 AND";
"2 1 17305 17241 16862 XOR";
"2 1 16799 63 17306 AND";
"2 1 44 4287 17242 AND";
"2 1 17306 17242 16863 XOR";
"2 1 16800 63 17307 AND";
"2 1 45 4287 17243 AND";
"2 1 17307 17243 16864 XOR";
"2 1 16801 63 17308 AND";
"2 1 46 4287 17244 AND";
"2 1 17308 17244 16865 XOR";
"2 1 16802 63 17309 AND";
"2 1 47 4287 17245 AND";
"2 1 17309 17245 16866 XOR";
"2 1 16803 63 17310 AND";
"2 1 48 4287 17246 AND";
"2 1 17310 17246 16867 XOR";
"2 1 16804 63 17311 AND";
"2 1 49 4287 17247 AND";
"2 1 17311 17247 16868 XOR";
"2 1 16805 63 17312 AND";
"2 1 50 4287 17248 AND";
"2 1 17312 17248 16869 XOR";
"2 1 16806 63 17313 AND";
"2 1 51 4287 17249 AND";
"2 1 17313 17249 16870 XOR";
"2 1 16807 63 17314 AND";
"2 1 52 4287 17250 AND";
"2 1 17314 17250 16871 XOR";
"2 1 16808 63 17315 AND";
"2 1 53 4287 17251 AND";
"2 1 17315 17251 16872 XOR";
"2 1 16809 63 17316 AND";
"2 1 54 4287 17252 AND";
"2 1 17316 17252 16873 XOR";
"2 1 16810 63 17317 AND";
"2 1 55 4287 17253 AND";
"2 1 17317 17253 16874 XOR";
"2 1 16811 63 17318 AND";
"2 1 56 4287 17254 AND";
"2 1 17318 17254 16875 XOR";
"2 1 16812 63 17319 AND";
"2 1 57 4287 17255 AND";
"2 1 17319 17255 16876 XOR";
"2 1 16813 63 17320 AND";
"2 1 58 4287 17256 AND";
"2 1 17320 17256 16877 XOR";
"2 1 16814 63 17321 AND";
"2 1 59 4287 17257 AND";
"2 1 17321 17257 16878 XOR";
"2 1 16815 63 17322 AND";
"2 1 60 4287 17258 AND";
"2 1 17322 17258 16879 XOR";
"2 1 16816 63 17323 AND";
"2 1 61 4287 17259 AND";
"2 1 17323 17259 16880 XOR";
"2 1 16817 63 17324 AND";
"2 1 62 4287 17260 AND";
"2 1 17324 17260 16881 XOR";
"2 1 16818 63 17325 AND";
"2 1 63 4287 17261 AND";
"2 1 17325 17261 16882 XOR";
"1 1 127 16255 INV";
"2 1 64 127 29549 AND";
"2 1 64 16255 29485 AND";
"2 1 29549 29485 16946 XOR";
"2 1 16820 16946 4161 XOR";
"2 1 16821 16946 4098 XOR";
"2 1 16822 16946 4035 XOR";
"2 1 16823 16946 3972 XOR";
"2 1 16824 16946 3909 XOR";
"2 1 16825 16946 3846 XOR";
"2 1 16826 16946 3783 XOR";
"2 1 16827 16946 3720 XOR";
"2 1 16828 16946 3657 XOR";
"2 1 16829 16946 3594 XOR";
"2 1 16830 16946 3531 XOR";
"2 1 16831 16946 3468 XOR";
"2 1 16832 16946 3405 XOR";
"2 1 16833 16946 3342 XOR";
"2 1 16834 16946 3279 XOR";
"2 1 16835 16946 3216 XOR";
"2 1 16836 16946 3153 XOR";
"2 1 16837 16946 3090 XOR";
"2 1 16838 16946 3027 XOR";
"2 1 16839 16946 2964 XOR";
"2 1 16840 16946 2901 XOR";
"2 1 16841 16946 2838 XOR";
"2 1 16842 16946 2775 XOR";
"2 1 16843 16946 2712 XOR";
"2 1 16844 16946 2649 XOR";
"2 1 16845 16946 2586 XOR";
"2 1 16846 16946 2523 XOR";
"2 1 16847 16946 2460 XOR";
"2 1 16848 16946 2397 XOR";
"2 1 16849 16946 2334 XOR";
"2 1 16850 16946 2271 XOR";
"2 1 16851 16946 2208 XOR";
"2 1 16852 16946 2145 XOR";
"2 1 16853 16946 2082 XOR";
"2 1 16854 16946 2019 XOR";
"2 1 16855 16946 1956 XOR";
"2 1 16856 16946 1893 XOR";
"2 1 16857 16946 1830 XOR";
"2 1 16858 16946 1767 XOR";
"2 1 16859 16946 1704 XOR";
"2 1 16860 16946 1641 XOR";
"2 1 16861 16946 1578 XOR";
"2 1 16862 16946 1515 XOR";
"2 1 16863 16946 1452 XOR";
"2 1 16864 16946 1389 XOR";
"2 1 16865 16946 1326 XOR";
"2 1 16866 16946 1263 XOR";
"2 1 16867 16946 1200 XOR";
"2 1 16868 16946 1137 XOR";
"2 1 16869 16946 1074 XOR";
"2 1 16870 16946 1011 XOR";
"2 1 16871 16946 948 XOR";
"2 1 16872 16946 885 XOR";
"2 1 16873 16946 822 XOR";
"2 1 16874 16946 759 XOR";
"2 1 16875 16946 696 XOR";
"2 1 16876 16946 633 XOR";
"2 1 16877 16946 570 XOR";
"2 1 16878 16946 507 XOR";
"2 1 16879 16946 444 XOR";
"2 1 16880 16946 381 XOR";
"2 1 16881 16946 318 XOR";
"2 1 65 16255 29486 AND";
"2 1 66 16255 29487 AND";
"2 1 67 16255 29488 AND";
"2 1 68 16255 29489 AND";
"2 1 69 16255 29490 AND";
"2 1 70 16255 29491 AND";
"2 1 71 16255 29492 AND";
"2 1 72 16255 29493 AND";
"2 1 73 16255 29494 AND";
"2 1 74 16255 29495 AND";
"2 1 75 16255 29496 AND";
"2 1 76 16255 29497 AND";
"2 1 77 16255 29498 AND";
"2 1 78 16255 29499 AND";
"2 1 79 16255 29500 AND";
"2 1 80 16255 29501 AND";
"2 1 81 16255 29502 AND";
"2 1 82 16255 29503 AND";
"2 1 83 16255 29504 AND";
"2 1 84 16255 29505 AND";
"2 1 85 16255 29506 AND";
"2 1 86 16255 29507 AND";
"2 1 87 16255 29508 AND";
"2 1 88 16255 29509 AND";
"2 1 89 16255 29510 AND";
"2 1 90 16255 29511 AND";
"2 1 91 16255 29512 AND";
"2 1 92 16255 29513 AND";
"2 1 93 16255 29514 AND";
"2 1 94 16255 29515 AND";
"2 1 95 16255 29516 AND";
"2 1 96 16255 29517 AND";
"2 1 97 16255 29518 AND";
"2 1 98 16255 29519 AND";
"2 1 99 16255 29520 AND";
"2 1 100 16255 29521 AND";
"2 1 101 16255 29522 AND";
"2 1 102 16255 29523 AND";
"2 1 103 16255 29524 AND";
"2 1 104 16255 29525 AND";
"2 1 105 16255 29526 AND";
"2 1 106 16255 29527 AND";
"2 1 107 16255 29528 AND";
"2 1 108 16255 29529 AND";
"2 1 109 16255 29530 AND";
"2 1 110 16255 29531 AND";
"2 1 111 16255 29532 AND";
"2 1 112 16255 29533 AND";
"2 1 113 16255 29534 AND";
"2 1 114 16255 29535 AND";
"2 1 115 16255 29536 AND";
"2 1 116 16255 29537 AND";
"2 1 117 16255 29538 AND";
"2 1 118 16255 29539 AND";
"2 1 119 16255 29540 AND";
"2 1 120 16255 29541 AND";
"2 1 121 16255 29542 AND";
"2 1 122 16255 29543 AND";
"2 1 123 16255 29544 AND";
"2 1 124 16255 29545 AND";
"2 1 125 16255 29546 AND";
"2 1 126 16255 29547 AND";
"2 1 127 16255 29548 AND";
"1 1 126 29800 INV";
"1 1 125 29799 INV";
"1 1 124 29798 INV";
"1 1 123 29797 INV";
"1 1 122 29796 INV";
"1 1 121 29795 INV";
"1 1 120 29794 INV";
"1 1 119 29793 INV";
"1 1 118 29792 INV";
"1 1 117 29791 INV";
"1 1 116 29790 INV";
"1 1 115 29789 INV";
"1 1 114 29788 INV";
"1 1 113 29787 INV";
"1 1 112 29786 INV";
"1 1 111 29785 INV";
"1 1 110 29784 INV";
"1 1 109 29783 INV";
"1 1 108 29782 INV";
"1 1 107 29781 INV";
"1 1 106 29780 INV";
"1 1 105 29779 INV";
"1 1 104 29778 INV";
"1 1 103 29777 INV";
"1 1 102 29776 INV";
"1 1 101 29775 INV";
"1 1 100 29774 INV";
"1 1 99 29773 INV";
"1 1 98 29772 INV";
"1 1 97 29771 INV";
"1 1 96 29770 INV";
"1 1 95 29769 INV";
"1 1 94 29768 INV";
"1 1 93 29767 INV";
"1 1 92 29766 INV";
"1 1 91 29765 INV";
"1 1 90 29764 INV";
"1 1 89 29763 INV";
"1 1 88 29762 INV";
"1 1 87 29761 INV";
"1 1 86 29760 INV";
"1 1 85 29759 INV";
"1 1 84 29758 INV";
"1 1 83 29757 INV";
"1 1 82 29756 INV";
"1 1 81 29755 INV";
"1 1 80 29754 INV";
"1 1 79 29753 INV";
"1 1 78 29752 INV";
"1 1 77 29751 INV";
"1 1 76 29750 INV";
"1 1 75 29749 INV";
"1 1 74 29748 INV";
"1 1 73 29747 INV";
"1 1 72 29746 INV";
"1 1 71 29745 INV";
"1 1 70 29744 INV";
"1 1 69 29743 INV";
"1 1 68 29742 INV";
"1 1 67 29741 INV";
"1 1 66 29740 INV";
"1 1 65 29739 INV";
"1 1 64 29738 INV";
"2 1 65 29738 29675 XOR";
"1 1 29675 16883 INV";
"2 1 16883 127 29550 AND";
"2 1 29550 29486 16947 XOR";
"2 1 4098 16947 17830 XOR";
"2 1 4035 16947 18019 XOR";
"2 1 3972 16947 18208 XOR";
"2 1 3909 16947 18397 XOR";
"2 1 3846 16947 18586 XOR";
"2 1 3783 16947 18775 XOR";
"2 1 3720 16947 18964 XOR";
"2 1 3657 16947 19153 XOR";
"2 1 3594 16947 19342 XOR";
"2 1 3531 16947 19531 XOR";
"2 1 3468 16947 19720 XOR";
"2 1 3405 16947 19909 XOR";
"2 1 3342 16947 20098 XOR";
"2 1 3279 16947 20287 XOR";
"2 1 3216 16947 20476 XOR";
"2 1 3153 16947 20665 XOR";
"2 1 3090 16947 20854 XOR";
"2 1 3027 16947 21043 XOR";
"2 1 2964 16947 21232 XOR";
"2 1 2901 16947 21421 XOR";
"2 1 2838 16947 21610 XOR";
"2 1 2775 16947 21799 XOR";
"2 1 2712 16947 21988 XOR";
"2 1 2649 16947 22177 XOR";
"2 1 2586 16947 22366 XOR";
"2 1 2523 16947 22555 XOR";
"2 1 2460 16947 22744 XOR";
"2 1 2397 16947 22933 XOR";
"2 1 2334 16947 23122 XOR";
"2 1 2271 16947 23311 XOR";
"2 1 2208 16947 23500 XOR";
"2 1 2145 16947 23689 XOR";
"2 1 2082 16947 23878 XOR";
"2 1 2019 16947 24067 XOR";
"2 1 1956 16947 24256 XOR";
"2 1 1893 16947 24445 XOR";
"2 1 1830 16947 24634 XOR";
"2 1 1767 16947 24823 XOR";
"2 1 1704 16947 25012 XOR";
"2 1 1641 16947 25201 XOR";
"2 1 1578 16947 25390 XOR";
"2 1 1515 16947 25579 XOR";
"2 1 1452 16947 25768 XOR";
"2 1 1389 16947 25957 XOR";
"2 1 1326 16947 26146 XOR";
"2 1 1263 16947 26335 XOR";
"2 1 1200 16947 26524 XOR";
"2 1 1137 16947 26713 XOR";
"2 1 1074 16947 26902 XOR";
"2 1 1011 16947 27091 XOR";
"2 1 948 16947 27280 XOR";
"2 1 885 16947 27469 XOR";
"2 1 822 16947 27658 XOR";
"2 1 759 16947 27847 XOR";
"2 1 696 16947 28036 XOR";
"2 1 633 16947 28225 XOR";
"2 1 570 16947 28414 XOR";
"2 1 507 16947 28603 XOR";
"2 1 444 16947 28792 XOR";
"2 1 381 16947 28981 XOR";
"2 1 318 16947 29170 XOR";
"2 1 29739 29738 16379 XOR";
"2 1 16379 29738 16378 AND";
"2 1 16378 29738 29613 XOR";
"2 1 66 29613 29676 XOR";
"1 1 29676 16884 INV";
"2 1 16884 127 29551 AND";
"2 1 29551 29487 16948 XOR";
"2 1 29740 29613 16377 XOR";
"2 1 16377 29613 16376 AND";
"2 1 16376 29613 29614 XOR";
"2 1 67 29614 29677 XOR";
"1 1 29677 16885 INV";
"2 1 16885 127 29552 AND";
"2 1 29552 29488 16949 XOR";
"2 1 29741 29614 16375 XOR";
"2 1 16375 29614 16374 AND";
"2 1 16374 29614 29615 XOR";
"2 1 68 29615 29678 XOR";
"1 1 29678 16886 INV";
"2 1 16886 127 29553 AND";
"2 1 29553 29489 16950 XOR";
"2 1 29742 29615 16373 XOR";
"2 1 16373 29615 16372 AND";
"2 1 16372 29615 29616 XOR";
"2 1 69 29616 29679 XOR";
"1 1 29679 16887 INV";
"2 1 16887 127 29554 AND";
"2 1 29554 29490 16951 XOR";
"2 1 29743 29616 16371 XOR";
"2 1 16371 29616 16370 AND";
"2 1 16370 29616 29617 XOR";
"2 1 70 29617 29680 XOR";
"1 1 29680 16888 INV";
"2 1 16888 127 29555 AND";
"2 1 29555 29491 16952 XOR";
"2 1 29744 29617 16369 XOR";
"2 1 16369 29617 16368 AND";
"2 1 16368 29617 29618 XOR";
"2 1 71 29618 29681 XOR";
"1 1 29681 16889 INV";
"2 1 16889 127 29556 AND";
"2 1 29556 29492 16953 XOR";
"2 1 29745 29618 16367 XOR";
"2 1 16367 29618 16366 AND";
"2 1 16366 29618 29619 XOR";
"2 1 72 29619 29682 XOR";
"1 1 29682 16890 INV";
"2 1 16890 127 29557 AND";
"2 1 29557 29493 16954 XOR";
"2 1 29746 29619 16365 XOR";
"2 1 16365 29619 16364 AND";
"2 1 16364 29619 29620 XOR";
"2 1 73 29620 29683 XOR";
"1 1 29683 16891 INV";
"2 1 16891 127 29558 AND";
"2 1 29558 29494 16955 XOR";
"2 1 29747 29620 16363 XOR";
"2 1 16363 29620 16362 AND";
"2 1 16362 29620 29621 XOR";
"2 1 74 29621 29684 XOR";
"1 1 29684 16892 INV";
"2 1 16892 127 29559 AND";
"2 1 29559 29495 16956 XOR";
"2 1 29748 29621 16361 XOR";
"2 1 16361 29621 16360 AND";
"2 1 16360 29621 29622 XOR";
"2 1 75 29622 29685 XOR";
"1 1 29685 16893 INV";
"2 1 16893 127 29560 AND";
"2 1 29560 29496 16957 XOR";
"2 1 29749 29622 16359 XOR";
"2 1 16359 29622 16358 AND";
"2 1 16358 29622 29623 XOR";
"2 1 76 29623 29686 XOR";
"1 1 29686 16894 INV";
"2 1 16894 127 29561 AND";
"2 1 29561 29497 16958 XOR";
"2 1 29750 29623 16357 XOR";
"2 1 16357 29623 16356 AND";
"2 1 16356 29623 29624 XOR";
"2 1 77 29624 29687 XOR";
"1 1 29687 16895 INV";
"2 1 16895 127 29562 AND";
"2 1 29562 29498 16959 XOR";
"2 1 29751 29624 16355 XOR";
"2 1 16355 29624 16354 AND";
"2 1 16354 29624 29625 XOR";
"2 1 78 29625 29688 XOR";
"1 1 29688 16896 INV";
"2 1 16896 127 29563 AND";
"2 1 29563 29499 16960 XOR";
"2 1 29752 29625 16353 XOR";
"2 1 16353 29625 16352 AND";
"2 1 16352 29625 29626 XOR";
"2 1 79 29626 29689 XOR";
"1 1 29689 16897 INV";
"2 1 16897 127 29564 AND";
"2 1 29564 29500 16961 XOR";
"2 1 29753 29626 16351 XOR";
"2 1 16351 29626 16350 AND";
"2 1 16350 29626 29627 XOR";
"2 1 80 29627 29690 XOR";
"1 1 29690 16898 INV";
"2 1 16898 127 29565 AND";
"2 1 29565 29501 16962 XOR";
"2 1 29754 29627 16349 XOR";
"2 1 16349 29627 16348 AND";
"2 1 16348 29627 29628 XOR";
"2 1 81 29628 29691 XOR";
"1 1 29691 16899 INV";
"2 1 16899 127 29566 AND";
"2 1 29566 29502 16963 XOR";
"2 1 29755 29628 16347 XOR";
"2 1 16347 29628 16346 AND";
"2 1 16346 29628 29629 XOR";
"2 1 82 29629 29692 XOR";
"1 1 29692 16900 INV";
"2 1 16900 127 29567 AND";
"2 1 29567 29503 16964 XOR";
"2 1 29756 29629 16345 XOR";
"2 1 16345 29629 16344 AND";
"2 1 16344 29629 29630 XOR";
"2 1 83 29630 29693 XOR";
"1 1 29693 16901 INV";
"2 1 16901 127 29568 AND";
"2 1 29568 29504 16965 XOR";
"2 1 29757 29630 16343 XOR";
"2 1 16343 29630 16342 AND";
"2 1 16342 29630 29631 XOR";
"2 1 84 29631 29694 XOR";
"1 1 29694 16902 INV";
"2 1 16902 127 29569 AND";
"2 1 29569 29505 16966 XOR";
"2 1 29758 29631 16341 XOR";
"2 1 16341 29631 16340 AND";
"2 1 16340 29631 29632 XOR";
"2 1 85 29632 29695 XOR";
"1 1 29695 16903 INV";
"2 1 16903 127 29570 AND";
"2 1 29570 29506 16967 XOR";
"2 1 29759 29632 16339 XOR";
"2 1 16339 29632 16338 AND";
"2 1 16338 29632 29633 XOR";
"2 1 86 29633 29696 XOR";
"1 1 29696 16904 INV";
"2 1 16904 127 29571 AND";
"2 1 29571 29507 16968 XOR";
"2 1 29760 29633 16337 XOR";
"2 1 16337 29633 16336 AND";
"2 1 16336 29633 29634 XOR";
"2 1 87 29634 29697 XOR";
"1 1 29697 16905 INV";
"2 1 16905 127 29572 AND";
"2 1 29572 29508 16969 XOR";
"2 1 29761 29634 16335 XOR";
"2 1 16335 29634 16334 AND";
"2 1 16334 29634 29635 XOR";
"2 1 88 29635 29698 XOR";
"1 1 29698 16906 INV";
"2 1 16906 127 29573 AND";
"2 1 29573 29509 16970 XOR";
"2 1 29762 29635 16333 XOR";
"2 1 16333 29635 16332 AND";
"2 1 16332 29635 29636 XOR";
"2 1 89 29636 29699 XOR";
"1 1 29699 16907 INV";
"2 1 16907 127 29574 AND";
"2 1 29574 29510 16971 XOR";
"2 1 29763 29636 16331 XOR";
"2 1 16331 29636 16330 AND";
"2 1 16330 29636 29637 XOR";
"2 1 90 29637 29700 XOR";
"1 1 29700 16908 INV";
"2 1 16908 127 29575 AND";
"2 1 29575 29511 16972 XOR";
"2 1 29764 29637 16329 XOR";
"2 1 16329 29637 16328 AND";
"2 1 16328 29637 29638 XOR";
"2 1 91 29638 29701 XOR";
"1 1 29701 16909 INV";
"2 1 16909 127 29576 AND";
"2 1 29576 29512 16973 XOR";
"2 1 29765 29638 16327 XOR";
"2 1 16327 29638 16326 AND";
"2 1 16326 29638 29639 XOR";
"2 1 92 29639 29702 XOR";
"1 1 29702 16910 INV";
"2 1 16910 127 29577 AND";
"2 1 29577 29513 16974 XOR";
"2 1 29766 29639 16325 XOR";
"2 1 16325 29639 16324 AND";
"2 1 16324 29639 29640 XOR";
"2 1 93 29640 29703 XOR";
"1 1 29703 16911 INV";
"2 1 16911 127 29578 AND";
"2 1 29578 29514 16975 XOR";
"2 1 29767 29640 16323 XOR";
"2 1 16323 29640 16322 AND";
"2 1 16322 29640 29641 XOR";
"2 1 94 29641 29704 XOR";
"1 1 29704 16912 INV";
"2 1 16912 127 29579 AND";
"2 1 29579 29515 16976 XOR";
"2 1 29768 29641 16321 XOR";
"2 1 16321 29641 16320 AND";
"2 1 16320 29641 29642 XOR";
"2 1 95 29642 29705 XOR";
"1 1 29705 16913 INV";
"2 1 16913 127 29580 AND";
"2 1 29580 29516 16977 XOR";
"2 1 29769 29642 16319 XOR";
"2 1 16319 29642 16318 AND";
"2 1 16318 29642 29643 XOR";
"2 1 96 29643 29706 XOR";
"1 1 29706 16914 INV";
"2 1 16914 127 29581 AND";
"2 1 29581 29517 16978 XOR";
"2 1 29770 29643 16317 XOR";
"2 1 16317 29643 16316 AND";
"2 1 16316 29643 29644 XOR";
"2 1 97 29644 29707 XOR";
"1 1 29707 16915 INV";
"2 1 16915 127 29582 AND";
"2 1 29582 29518 16979 XOR";
"2 1 29771 29644 16315 XOR";
"2 1 16315 29644 16314 AND";
"2 1 16314 29644 29645 XOR";
"2 1 98 29645 29708 XOR";
"1 1 29708 16916 INV";
"2 1 16916 127 29583 AND";
"2 1 29583 29519 16980 XOR";
"2 1 29772 29645 16313 XOR";
"2 1 16313 29645 16312 AND";
"2 1 16312 29645 29646 XOR";
"2 1 99 29646 29709 XOR";
"1 1 29709 16917 INV";
"2 1 16917 127 29584 AND";
"2 1 29584 29520 16981 XOR";
"2 1 29773 29646 16311 XOR";
"2 1 16311 29646 16310 AND";
"2 1 16310 29646 29647 XOR";
"2 1 100 29647 29710 XOR";
"1 1 29710 16918 INV";
"2 1 16918 127 29585 AND";
"2 1 29585 29521 16982 XOR";
"2 1 29774 29647 16309 XOR";
"2 1 16309 29647 16308 AND";
"2 1 16308 29647 29648 XOR";
"2 1 101 29648 29711 XOR";
"1 1 29711 16919 INV";
"2 1 16919 127 29586 AND";
"2 1 29586 29522 16983 XOR";
"2 1 29775 29648 16307 XOR";
"2 1 16307 29648 16306 AND";
"2 1 16306 29648 29649 XOR";
"2 1 102 29649 29712 XOR";
"1 1 29712 16920 INV";
"2 1 16920 127 29587 AND";
"2 1 29587 29523 16984 XOR";
"2 1 29776 29649 16305 XOR";
"2 1 16305 29649 16304 AND";
"2 1 16304 29649 29650 XOR";
"2 1 103 29650 29713 XOR";
"1 1 29713 16921 INV";
"2 1 16921 127 29588 AND";
"2 1 29588 29524 16985 XOR";
"2 1 29777 29650 16303 XOR";
"2 1 16303 29650 16302 AND";
"2 1 16302 29650 29651 XOR";
"2 1 104 29651 29714 XOR";
"1 1 29714 16922 INV";
"2 1 16922 127 29589 AND";
"2 1 29589 29525 16986 XOR";
"2 1 29778 29651 16301 XOR";
"2 1 16301 29651 16300 AND";
"2 1 16300 29651 29652 XOR";
"2 1 105 29652 29715 XOR";
"1 1 29715 16923 INV";
"2 1 16923 127 29590 AND";
"2 1 29590 29526 16987 XOR";
"2 1 29779 29652 16299 XOR";
"2 1 16299 29652 16298 AND";
"2 1 16298 29652 29653 XOR";
"2 1 106 29653 29716 XOR";
"1 1 29716 16924 INV";
"2 1 16924 127 29591 AND";
"2 1 29591 29527 16988 XOR";
"2 1 29780 29653 16297 XOR";
"2 1 16297 29653 16296 AND";
"2 1 16296 29653 29654 XOR";
"2 1 107 29654 29717 XOR";
"1 1 29717 16925 INV";
"2 1 16925 127 29592 AND";
"2 1 29592 29528 16989 XOR";
"2 1 29781 29654 16295 XOR";
"2 1 16295 29654 16294 AND";
"2 1 16294 29654 29655 XOR";
"2 1 108 29655 29718 XOR";
"1 1 29718 16926 INV";
"2 1 16926 127 29593 AND";
"2 1 29593 29529 16990 XOR";
"2 1 29782 29655 16293 XOR";
"2 1 16293 29655 16292 AND";
"2 1 16292 29655 29656 XOR";
"2 1 109 29656 29719 XOR";
"1 1 29719 16927 INV";
"2 1 16927 127 29594 AND";
"2 1 29594 29530 16991 XOR";
"2 1 29783 29656 16291 XOR";
"2 1 16291 29656 16290 AND";
"2 1 16290 29656 29657 XOR";
"2 1 110 29657 29720 XOR";
"1 1 29720 16928 INV";
"2 1 16928 127 29595 AND";
"2 1 29595 29531 16992 XOR";
"2 1 29784 29657 16289 XOR";
"2 1 16289 29657 16288 AND";
"2 1 16288 29657 29658 XOR";
"2 1 111 29658 29721 XOR";
"1 1 29721 16929 INV";
"2 1 16929 127 29596 AND";
"2 1 29596 29532 16993 XOR";
"2 1 29785 29658 16287 XOR";
"2 1 16287 29658 16286 AND";
"2 1 16286 29658 29659 XOR";
"2 1 112 29659 29722 XOR";
"1 1 29722 16930 INV";
"2 1 16930 127 29597 AND";
"2 1 29597 29533 16994 XOR";
"2 1 29786 29659 16285 XOR";
"2 1 16285 29659 16284 AND";
"2 1 16284 29659 29660 XOR";
"2 1 113 29660 29723 XOR";
"1 1 29723 16931 INV";
"2 1 16931 127 29598 AND";
"2 1 29598 29534 16995 XOR";
"2 1 29787 29660 16283 XOR";
"2 1 16283 29660 16282 AND";
"2 1 16282 29660 29661 XOR";
"2 1 114 29661 29724 XOR";
"1 1 29724 16932 INV";
"2 1 16932 127 29599 AND";
"2 1 29599 29535 16996 XOR";
"2 1 29788 29661 16281 XOR";
"2 1 16281 29661 16280 AND";
"2 1 16280 29661 29662 XOR";
"2 1 115 29662 29725 XOR";
"1 1 29725 16933 INV";
"2 1 16933 127 29600 AND";
"2 1 29600 29536 16997 XOR";
"2 1 29789 29662 16279 XOR";
"2 1 16279 29662 16278 AND";
"2 1 16278 29662 29663 XOR";
"2 1 116 29663 29726 XOR";
"1 1 29726 16934 INV";
"2 1 16934 127 29601 AND";
"2 1 29601 29537 16998 XOR";
"2 1 29790 29663 16277 XOR";
"2 1 16277 29663 16276 AND";
"2 1 16276 29663 29664 XOR";
"2 1 117 29664 29727 XOR";
"1 1 29727 16935 INV";
"2 1 16935 127 29602 AND";
"2 1 29602 29538 16999 XOR";
"2 1 29791 29664 16275 XOR";
"2 1 16275 29664 16274 AND";
"2 1 16274 29664 29665 XOR";
"2 1 118 29665 29728 XOR";
"1 1 29728 16936 INV";
"2 1 16936 127 29603 AND";
"2 1 29603 29539 17000 XOR";
"2 1 29792 29665 16273 XOR";
"2 1 16273 29665 16272 AND";
"2 1 16272 29665 29666 XOR";
"2 1 119 29666 29729 XOR";
"1 1 29729 16937 INV";
"2 1 16937 127 29604 AND";
"2 1 29604 29540 17001 XOR";
"2 1 29793 29666 16271 XOR";
"2 1 16271 29666 16270 AND";
"2 1 16270 29666 29667 XOR";
"2 1 120 29667 29730 XOR";
"1 1 29730 16938 INV";
"2 1 16938 127 29605 AND";
"2 1 29605 29541 17002 XOR";
"2 1 29794 29667 16269 XOR";
"2 1 16269 29667 16268 AND";
"2 1 16268 29667 29668 XOR";
"2 1 121 29668 29731 XOR";
"1 1 29731 16939 INV";
"2 1 16939 127 29606 AND";
"2 1 29606 29542 17003 XOR";
"2 1 29795 29668 16267 XOR";
"2 1 16267 29668 16266 AND";
"2 1 16266 29668 29669 XOR";
"2 1 122 29669 29732 XOR";
"1 1 29732 16940 INV";
"2 1 16940 127 29607 AND";
"2 1 29607 29543 17004 XOR";
"2 1 29796 29669 16265 XOR";
"2 1 16265 29669 16264 AND";
"2 1 16264 29669 29670 XOR";
"2 1 123 29670 29733 XOR";
"1 1 29733 16941 INV";
"2 1 16941 127 29608 AND";
"2 1 29608 29544 17005 XOR";
"2 1 29797 29670 16263 XOR";
"2 1 16263 29670 16262 AND";
"2 1 16262 29670 29671 XOR";
"2 1 124 29671 29734 XOR";
"1 1 29734 16942 INV";
"2 1 16942 127 29609 AND";
"2 1 29609 29545 17006 XOR";
"2 1 29798 29671 16261 XOR";
"2 1 16261 29671 16260 AND";
"2 1 16260 29671 29672 XOR";
"2 1 125 29672 29735 XOR";
"1 1 29735 16943 INV";
"2 1 16943 127 29610 AND";
"2 1 29610 29546 17007 XOR";
"2 1 29799 29672 16259 XOR";
"2 1 16259 29672 16258 AND";
"2 1 16258 29672 29673 XOR";
"2 1 126 29673 29736 XOR";
"1 1 29736 16944 INV";
"2 1 16944 127 29611 AND";
"2 1 29611 29547 17008 XOR";
"2 1 29800 29673 16257 XOR";
"2 1 16257 29673 16256 AND";
"2 1 16256 29673 29674 XOR";
"2 1 127 29674 29737 XOR";
"1 1 29737 16945 INV";
"2 1 16945 127 29612 AND";
"2 1 29612 29548 17009 XOR";
"2 1 16882 16946 255 XOR";
"2 1 255 16947 29359 XOR";
"2 1 63 127 128 XOR";
"1 1 128 4535 INV";
"1 1 16946 16755 INV";
"2 1 16946 16947 29864 XOR";
"2 1 16755 29864 4410 AND";
"2 1 4410 16946 17326 XOR";
"2 1 16948 17326 4409 XOR";
"1 1 17326 16754 INV";
"2 1 16754 4409 4408 AND";
"2 1 4408 17326 17327 XOR";
"2 1 16949 17327 4407 XOR";
"1 1 17327 16753 INV";
"2 1 16753 4407 4406 AND";
"2 1 4406 17327 17328 XOR";
"2 1 16950 17328 4405 XOR";
"1 1 17328 16752 INV";
"2 1 16752 4405 4404 AND";
"2 1 4404 17328 17329 XOR";
"2 1 16951 17329 4403 XOR";
"1 1 17329 16751 INV";
"2 1 16751 4403 4402 AND";
"2 1 4402 17329 17330 XOR";
"2 1 16952 17330 4401 XOR";
"1 1 17330 16750 INV";
"2 1 16750 4401 4400 AND";
"2 1 4400 17330 17331 XOR";
"2 1 16953 17331 4399 XOR";
"1 1 17331 16749 INV";
"2 1 16749 4399 4398 AND";
"2 1 4398 17331 17332 XOR";
"2 1 16954 17332 4397 XOR";
"1 1 17332 16748 INV";
"2 1 16748 4397 4396 AND";
"2 1 4396 17332 17333 XOR";
"2 1 16955 17333 4395 XOR";
"1 1 17333 16747 INV";
"2 1 16747 4395 4394 AND";
"2 1 4394 17333 17334 XOR";
"2 1 16956 17334 4393 XOR";
"1 1 17334 16746 INV";
"2 1 16746 4393 4392 AND";
"2 1 4392 17334 17335 XOR";
"2 1 16957 17335 4391 XOR";
"1 1 17335 16745 INV";
"2 1 16745 4391 4390 AND";
"2 1 4390 17335 17336 XOR";
"2 1 16958 17336 4389 XOR";
"1 1 17336 16744 INV";
"2 1 16744 4389 4388 AND";
"2 1 4388 17336 17337 XOR";
"2 1 16959 17337 4387 XOR";
"1 1 17337 16743 INV";
"2 1 16743 4387 4386 AND";
"2 1 4386 17337 17338 XOR";
"2 1 16960 17338 4385 XOR";
"1 1 17338 16742 INV";
"2 1 16742 4385 4384 AND";
"2 1 4384 17338 17339 XOR";
"2 1 16961 17339 4383 XOR";
"1 1 17339 16741 INV";
"2 1 16741 4383 4382 AND";
"2 1 4382 17339 17340 XOR";
"2 1 16962 17340 4381 XOR";
"1 1 17340 16740 INV";
"2 1 16740 4381 4380 AND";
"2 1 4380 17340 17341 XOR";
"2 1 16963 17341 4379 XOR";
"1 1 17341 16739 INV";
"2 1 16739 4379 4378 AND";
"2 1 4378 17341 17342 XOR";
"2 1 16964 17342 4377 XOR";
"1 1 17342 16738 INV";
"2 1 16738 4377 4376 AND";
"2 1 4376 17342 17343 XOR";
"2 1 16965 17343 4375 XOR";
"1 1 17343 16737 INV";
"2 1 16737 4375 4374 AND";
"2 1 4374 17343 17344 XOR";
"2 1 16966 17344 4373 XOR";
"1 1 17344 16736 INV";
"2 1 16736 4373 4372 AND";
"2 1 4372 17344 17345 XOR";
"2 1 16967 17345 4371 XOR";
"1 1 17345 16735 INV";
"2 1 16735 4371 4370 AND";
"2 1 4370 17345 17346 XOR";
"2 1 16968 17346 4369 XOR";
"1 1 17346 16734 INV";
"2 1 16734 4369 4368 AND";
"2 1 4368 17346 17347 XOR";
"2 1 16969 17347 4367 XOR";
"1 1 17347 16733 INV";
"2 1 16733 4367 4366 AND";
"2 1 4366 17347 17348 XOR";
"2 1 16970 17348 4365 XOR";
"1 1 17348 16732 INV";
"2 1 16732 4365 4364 AND";
"2 1 4364 17348 17349 XOR";
"2 1 16971 17349 4363 XOR";
"1 1 17349 16731 INV";
"2 1 16731 4363 4362 AND";
"2 1 4362 17349 17350 XOR";
"2 1 16972 17350 4361 XOR";
"1 1 17350 16730 INV";
"2 1 16730 4361 4360 AND";
"2 1 4360 17350 17351 XOR";
"2 1 16973 17351 4359 XOR";
"1 1 17351 16729 INV";
"2 1 16729 4359 4358 AND";
"2 1 4358 17351 17352 XOR";
"2 1 16974 17352 4357 XOR";
"1 1 17352 16728 INV";
"2 1 16728 4357 4356 AND";
"2 1 4356 17352 17353 XOR";
"2 1 16975 17353 4355 XOR";
"1 1 17353 16727 INV";
"2 1 16727 4355 4354 AND";
"2 1 4354 17353 17354 XOR";
"2 1 16976 17354 4353 XOR";
"1 1 17354 16726 INV";
"2 1 16726 4353 4352 AND";
"2 1 4352 17354 17355 XOR";
"2 1 16977 17355 4351 XOR";
"1 1 17355 16725 INV";
"2 1 16725 4351 4350 AND";
"2 1 4350 17355 17356 XOR";
"2 1 16978 17356 4349 XOR";
"1 1 17356 16724 INV";
"2 1 16724 4349 4348 AND";
"2 1 4348 17356 17357 XOR";
"2 1 16979 17357 4347 XOR";
"1 1 17357 16723 INV";
"2 1 16723 4347 4346 AND";
"2 1 4346 17357 17358 XOR";
"1 1 17358 16722 INV";
"2 1 16980 17358 4345 XOR";
"2 1 16722 4345 4344 AND";
"2 1 4344 17358 17359 XOR";
"1 1 17359 16721 INV";
"2 1 16981 17359 4343 XOR";
"2 1 16721 4343 4342 AND";
"2 1 4342 17359 17360 XOR";
"1 1 17360 16720 INV";
"2 1 16982 17360 4341 XOR";
"2 1 16720 4341 4340 AND";
"2 1 4340 17360 17361 XOR";
"1 1 17361 16719 INV";
"2 1 16983 17361 4339 XOR";
"2 1 16719 4339 4338 AND";
"2 1 4338 17361 17362 XOR";
"1 1 17362 16718 INV";
"2 1 16984 17362 4337 XOR";
"2 1 16718 4337 4336 AND";
"2 1 4336 17362 17363 XOR";
"1 1 17363 16717 INV";
"2 1 16985 17363 4335 XOR";
"2 1 16717 4335 4334 AND";
"2 1 4334 17363 17364 XOR";
"1 1 17364 16716 INV";
"2 1 16986 17364 4333 XOR";
"2 1 16716 4333 4332 AND";
"2 1 4332 17364 17365 XOR";
"1 1 17365 16715 INV";
"2 1 16987 17365 4331 XOR";
"2 1 16715 4331 4330 AND";
"2 1 4330 17365 17366 XOR";
"1 1 17366 16714 INV";
"2 1 16988 17366 4329 XOR";
"2 1 16714 4329 4328 AND";
"2 1 4328 17366 17367 XOR";
"1 1 17367 16713 INV";
"2 1 16989 17367 4327 XOR";
"2 1 16713 4327 4326 AND";
"2 1 4326 17367 17368 XOR";
"1 1 17368 16712 INV";
"2 1 16990 17368 4325 XOR";
"2 1 16712 4325 4324 AND";
"2 1 4324 17368 17369 XOR";
"1 1 17369 16711 INV";
"2 1 16991 17369 4323 XOR";
"2 1 16711 4323 4322 AND";
"2 1 4322 17369 17370 XOR";
"1 1 17370 16710 INV";
"2 1 16992 17370 4321 XOR";
"2 1 16710 4321 4320 AND";
"2 1 4320 17370 17371 XOR";
"1 1 17371 16709 INV";
"2 1 16993 17371 4319 XOR";
"2 1 16709 4319 4318 AND";
"2 1 4318 17371 17372 XOR";
"2 1 16994 17372 4317 XOR";
"1 1 17372 16708 INV";
"2 1 16708 4317 4316 AND";
"2 1 4316 17372 17373 XOR";
"1 1 17373 16707 INV";
"2 1 16995 17373 4315 XOR";
"2 1 16707 4315 4314 AND";
"2 1 4314 17373 17374 XOR";
"2 1 16996 17374 4313 XOR";
"1 1 17374 16706 INV";
"2 1 16706 4313 4312 AND";
"2 1 4312 17374 17375 XOR";
"1 1 17375 16705 INV";
"2 1 16997 17375 4311 XOR";
"2 1 16705 4311 4310 AND";
"2 1 4310 17375 17376 XOR";
"2 1 16998 17376 4309 XOR";
"1 1 17376 16704 INV";
"2 1 16704 4309 4308 AND";
"2 1 4308 17376 17377 XOR";
"2 1 16999 17377 4307 XOR";
"1 1 17377 16703 INV";
"2 1 16703 4307 4306 AND";
"2 1 4306 17377 17378 XOR";
"2 1 17000 17378 4305 XOR";
"1 1 17378 16702 INV";
"2 1 16702 4305 4304 AND";
"2 1 4304 17378 17379 XOR";
"2 1 17001 17379 4303 XOR";
"1 1 17379 16701 INV";
"2 1 16701 4303 4302 AND";
"2 1 4302 17379 17380 XOR";
"2 1 17002 17380 4301 XOR";
"1 1 17380 16700 INV";
"2 1 16700 4301 4300 AND";
"2 1 4300 17380 17381 XOR";
"2 1 17003 17381 4299 XOR";
"1 1 17381 16699 INV";
"2 1 16699 4299 4298 AND";
"2 1 4298 17381 17382 XOR";
"2 1 17004 17382 4297 XOR";
"1 1 17382 16698 INV";
"2 1 16698 4297 4296 AND";
"2 1 4296 17382 17383 XOR";
"2 1 17005 17383 4295 XOR";
"1 1 17383 16697 INV";
"2 1 16697 4295 4294 AND";
"2 1 4294 17383 17384 XOR";
"2 1 17006 17384 4293 XOR";
"1 1 17384 16696 INV";
"2 1 16696 4293 4292 AND";
"2 1 4292 17384 17385 XOR";
"1 1 17385 16695 INV";
"2 1 17007 17385 4291 XOR";
"2 1 16695 4291 4290 AND";
"2 1 4290 17385 17386 XOR";
"2 1 17008 17386 4289 XOR";
"1 1 17386 16694 INV";
"2 1 16694 4289 4288 AND";
"2 1 4288 17386 17387 XOR";
"2 1 17009 17387 129 XOR";
"2 1 29864 16948 29865 XOR";
"2 1 4409 16949 29866 XOR";
"2 1 4407 16950 29867 XOR";
"2 1 4405 16951 29868 XOR";
"2 1 4403 16952 29869 XOR";
"2 1 4401 16953 29870 XOR";
"2 1 4399 16954 29871 XOR";
"2 1 4397 16955 29872 XOR";
"2 1 4395 16956 29873 XOR";
"2 1 4393 16957 29874 XOR";
"2 1 4391 16958 29875 XOR";
"2 1 4389 16959 29876 XOR";
"2 1 4387 16960 29877 XOR";
"2 1 4385 16961 29878 XOR";
"2 1 4383 16962 29879 XOR";
"2 1 4381 16963 29880 XOR";
"2 1 4379 16964 29881 XOR";
"2 1 4377 16965 29882 XOR";
"2 1 4375 16966 29883 XOR";
"2 1 4373 16967 29884 XOR";
"2 1 4371 16968 29885 XOR";
"2 1 4369 16969 29886 XOR";
"2 1 4367 16970 29887 XOR";
"2 1 4365 16971 29888 XOR";
"2 1 4363 16972 29889 XOR";
"2 1 4361 16973 29890 XOR";
"2 1 4359 16974 29891 XOR";
"2 1 4357 16975 29892 XOR";
"2 1 4355 16976 29893 XOR";
"2 1 4353 16977 29894 XOR";
"2 1 4351 16978 29895 XOR";
"2 1 4349 16979 29896 XOR";
"2 1 4347 16980 29897 XOR";
"2 1 4345 16981 29898 XOR";
"2 1 4343 16982 29899 XOR";
"2 1 4341 16983 29900 XOR";
"2 1 4339 16984 29901 XOR";
"2 1 4337 16985 29902 XOR";
"2 1 4335 16986 29903 XOR";
"2 1 4333 16987 29904 XOR";
"2 1 4331 16988 29905 XOR";
"2 1 4329 16989 29906 XOR";
"2 1 4327 16990 29907 XOR";
"2 1 4325 16991 29908 XOR";
"2 1 4323 16992 29909 XOR";
"2 1 4321 16993 29910 XOR";
"2 1 4319 16994 29911 XOR";
"2 1 4317 16995 29912 XOR";
"2 1 4315 16996 29913 XOR";
"2 1 4313 16997 29914 XOR";
"2 1 4311 16998 29915 XOR";
"2 1 4309 16999 29916 XOR";
"2 1 4307 17000 29917 XOR";
"2 1 4305 17001 29918 XOR";
"2 1 4303 17002 29919 XOR";
"2 1 4301 17003 29920 XOR";
"2 1 4299 17004 29921 XOR";
"2 1 4297 17005 29922 XOR";
"2 1 4295 17006 29923 XOR";
"2 1 4293 17007 29924 XOR";
"2 1 4291 17008 29925 XOR";
"2 1 4289 17009 29926 XOR";
"1 1 129 16693 INV";
"2 1 16882 16693 29927 XOR";
"2 1 16946 16693 29928 XOR";
"2 1 29864 16693 29929 XOR";
"2 1 4409 16693 29930 XOR";
"2 1 4407 16693 29931 XOR";
"2 1 4405 16693 29932 XOR";
"2 1 4403 16693 29933 XOR";
"2 1 4401 16693 29934 XOR";
"2 1 4399 16693 29935 XOR";
"2 1 4397 16693 29936 XOR";
"2 1 4395 16693 29937 XOR";
"2 1 4393 16693 29938 XOR";
"2 1 4391 16693 29939 XOR";
"2 1 4389 16693 29940 XOR";
"2 1 4387 16693 29941 XOR";
"2 1 4385 16693 29942 XOR";
"2 1 4383 16693 29943 XOR";
"2 1 4381 16693 29944 XOR";
"2 1 4379 16693 29945 XOR";
"2 1 4377 16693 29946 XOR";
"2 1 4375 16693 29947 XOR";
"2 1 4373 16693 29948 XOR";
"2 1 4371 16693 29949 XOR";
"2 1 4369 16693 29950 XOR";
"2 1 4367 16693 29951 XOR";
"2 1 4365 16693 29952 XOR";
"2 1 4363 16693 29953 XOR";
"2 1 4361 16693 29954 XOR";
"2 1 4359 16693 29955 XOR";
"2 1 4357 16693 29956 XOR";
"2 1 4355 16693 29957 XOR";
"2 1 4353 16693 29958 XOR";
"2 1 4351 16693 29959 XOR";
"2 1 4349 16693 29960 XOR";
"2 1 4347 16693 29961 XOR";
"2 1 4345 16693 29962 XOR";
"2 1 4343 16693 29963 XOR";
"2 1 4341 16693 29964 XOR";
"2 1 4339 16693 29965 XOR";
"2 1 4337 16693 29966 XOR";
"2 1 4335 16693 29967 XOR";
"2 1 4333 16693 29968 XOR";
"2 1 4331 16693 29969 XOR";
"2 1 4329 16693 29970 XOR";
"2 1 4327 16693 29971 XOR";
"2 1 4325 16693 29972 XOR";
"2 1 4323 16693 29973 XOR";
"2 1 4321 16693 29974 XOR";
"2 1 4319 16693 29975 XOR";
"2 1 4317 16693 29976 XOR";
"2 1 4315 16693 29977 XOR";
"2 1 4313 16693 29978 XOR";
"2 1 4311 16693 29979 XOR";
"2 1 4309 16693 29980 XOR";
"2 1 4307 16693 29981 XOR";
"2 1 4305 16693 29982 XOR";
"2 1 4303 16693 29983 XOR";
"2 1 4301 16693 29984 XOR";
"2 1 4299 16693 29985 XOR";
"2 1 4297 16693 29986 XOR";
"2 1 4295 16693 29987 XOR";
"2 1 4293 16693 29988 XOR";
"2 1 4291 16693 29989 XOR";
"2 1 29927 16946 29801 AND";
"2 1 29864 29801 254 XOR";
"2 1 254 16948 29360 XOR";
"2 1 29928 29801 16565 XOR";
"2 1 16947 29801 16564 XOR";
"2 1 16565 16564 16563 AND";
"2 1 16563 29801 29802 XOR";
"2 1 29865 29802 253 XOR";
"2 1 253 16949 29361 XOR";
"2 1 29929 29802 16562 XOR";
"2 1 16948 29802 16561 XOR";
"2 1 16562 16561 16560 AND";
"2 1 16560 29802 29803 XOR";
"2 1 29866 29803 252 XOR";
"2 1 252 16950 29362 XOR";
"2 1 29930 29803 16559 XOR";
"2 1 16949 29803 16558 XOR";
"2 1 16559 16558 16557 AND";
"2 1 16557 29803 29804 XOR";
"2 1 29867 29804 251 XOR";
"2 1 251 16951 29363 XOR";
"2 1 29931 29804 16556 XOR";
"2 1 16950 29804 16555 XOR";
"2 1 16556 16555 16554 AND";
"2 1 16554 29804 29805 XOR";
"2 1 29868 29805 250 XOR";
"2 1 250 16952 29364 XOR";
"2 1 29932 29805 16553 XOR";
"2 1 16951 29805 16552 XOR";
"2 1 16553 16552 16551 AND";
"2 1 16551 29805 29806 XOR";
"2 1 29869 29806 249 XOR";
"2 1 249 16953 29365 XOR";
"2 1 29933 29806 16550 XOR";
"2 1 16952 29806 16549 XOR";
"2 1 16550 16549 16548 AND";
"2 1 16548 29806 29807 XOR";
"2 1 29870 29807 248 XOR";
"2 1 248 16954 29366 XOR";
"2 1 29934 29807 16547 XOR";
"2 1 16953 29807 16546 XOR";
"2 1 16547 16546 16545 AND";
"2 1 16545 29807 29808 XOR";
"2 1 29871 29808 247 XOR";
"2 1 247 16955 29367 XOR";
"2 1 29935 29808 16544 XOR";
"2 1 16954 29808 16543 XOR";
"2 1 16544 16543 16542 AND";
"2 1 16542 29808 29809 XOR";
"2 1 29872 29809 246 XOR";
"2 1 246 16956 29368 XOR";
"2 1 29936 29809 16541 XOR";
"2 1 16955 29809 16540 XOR";
"2 1 16541 16540 16539 AND";
"2 1 16539 29809 29810 XOR";
"2 1 29873 29810 245 XOR";
"2 1 245 16957 29369 XOR";
"2 1 29937 29810 16538 XOR";
"2 1 16956 29810 16537 XOR";
"2 1 16538 16537 16536 AND";
"2 1 16536 29810 29811 XOR";
"2 1 29874 29811 244 XOR";
"2 1 244 16958 29370 XOR";
"2 1 29938 29811 16535 XOR";
"2 1 16957 29811 16534 XOR";
"2 1 16535 16534 16533 AND";
"2 1 16533 29811 29812 XOR";
"2 1 29875 29812 243 XOR";
"2 1 243 16959 29371 XOR";
"2 1 29939 29812 16532 XOR";
"2 1 16958 29812 16531 XOR";
"2 1 16532 16531 16530 AND";
"2 1 16530 29812 29813 XOR";
"2 1 29876 29813 242 XOR";
"2 1 242 16960 29372 XOR";
"2 1 29940 29813 16529 XOR";
"2 1 16959 29813 16528 XOR";
"2 1 16529 16528 16527 AND";
"2 1 16527 29813 29814 XOR";
"2 1 29877 29814 241 XOR";
"2 1 241 16961 29373 XOR";
"2 1 29941 29814 16526 XOR";
"2 1 16960 29814 16525 XOR";
"2 1 16526 16525 16524 AND";
"2 1 16524 29814 29815 XOR";
"2 1 29878 29815 240 XOR";
"2 1 240 16962 29374 XOR";
"2 1 29942 29815 16523 XOR";
"2 1 16961 29815 16522 XOR";
"2 1 16523 16522 16521 AND";
"2 1 16521 29815 29816 XOR";
"2 1 29879 29816 239 XOR";
"2 1 239 16963 29375 XOR";
"2 1 29943 29816 16520 XOR";
"2 1 16962 29816 16519 XOR";
"2 1 16520 16519 16518 AND";
"2 1 16518 29816 29817 XOR";
"2 1 29880 29817 238 XOR";
"2 1 238 16964 29376 XOR";
"2 1 29944 29817 16517 XOR";
"2 1 16963 29817 16516 XOR";
"2 1 16517 16516 16515 AND";
"2 1 16515 29817 29818 XOR";
"2 1 29881 29818 237 XOR";
"2 1 237 16965 29377 XOR";
"2 1 29945 29818 16514 XOR";
"2 1 16964 29818 16513 XOR";
"2 1 16514 16513 16512 AND";
"2 1 16512 29818 29819 XOR";
"2 1 29882 29819 236 XOR";
"2 1 236 16966 29378 XOR";
"2 1 29946 29819 16511 XOR";
"2 1 16965 29819 16510 XOR";
"2 1 16511 16510 16509 AND";
"2 1 16509 29819 29820 XOR";
"2 1 29883 29820 235 XOR";
"2 1 235 16967 29379 XOR";
"2 1 29947 29820 16508 XOR";
"2 1 16966 29820 16507 XOR";
"2 1 16508 16507 16506 AND";
"2 1 16506 29820 29821 XOR";
"2 1 29884 29821 234 XOR";
"2 1 234 16968 29380 XOR";
"2 1 29948 29821 16505 XOR";
"2 1 16967 29821 16504 XOR";
"2 1 16505 16504 16503 AND";
"2 1 16503 29821 29822 XOR";
"2 1 29885 29822 233 XOR";
"2 1 233 16969 29381 XOR";
"2 1 29949 29822 16502 XOR";
"2 1 16968 29822 16501 XOR";
"2 1 16502 16501 16500 AND";
"2 1 16500 29822 29823 XOR";
"2 1 29886 29823 232 XOR";
"2 1 232 16970 29382 XOR";
"2 1 29950 29823 16499 XOR";
"2 1 16969 29823 16498 XOR";
"2 1 16499 16498 16497 AND";
"2 1 16497 29823 29824 XOR";
"2 1 29887 29824 231 XOR";
"2 1 231 16971 29383 XOR";
"2 1 29951 29824 16496 XOR";
"2 1 16970 29824 16495 XOR";
"2 1 16496 16495 16494 AND";
"2 1 16494 29824 29825 XOR";
"2 1 29888 29825 230 XOR";
"2 1 230 16972 29384 XOR";
"2 1 29952 29825 16493 XOR";
"2 1 16971 29825 16492 XOR";
"2 1 16493 16492 16491 AND";
"2 1 16491 29825 29826 XOR";
"2 1 29889 29826 229 XOR";
"2 1 229 16973 29385 XOR";
"2 1 29953 29826 16490 XOR";
"2 1 16972 29826 16489 XOR";
"2 1 16490 16489 16488 AND";
"2 1 16488 29826 29827 XOR";
"2 1 29890 29827 228 XOR";
"2 1 228 16974 29386 XOR";
"2 1 29954 29827 16487 XOR";
"2 1 16973 29827 16486 XOR";
"2 1 16487 16486 16485 AND";
"2 1 16485 29827 29828 XOR";
"2 1 29891 29828 227 XOR";
"2 1 227 16975 29387 XOR";
"2 1 29955 29828 16484 XOR";
"2 1 16974 29828 16483 XOR";
"2 1 16484 16483 16482 AND";
"2 1 16482 29828 29829 XOR";
"2 1 29892 29829 226 XOR";
"2 1 226 16976 29388 XOR";
"2 1 29956 29829 16481 XOR";
"2 1 16975 29829 16480 XOR";
"2 1 16481 16480 16479 AND";
"2 1 16479 29829 29830 XOR";
"2 1 29893 29830 225 XOR";
"2 1 225 16977 29389 XOR";
"2 1 29957 29830 16478 XOR";
"2 1 16976 29830 16477 XOR";
"2 1 16478 16477 16476 AND";
"2 1 16476 29830 29831 XOR";
"2 1 29894 29831 224 XOR";
"2 1 224 16978 29390 XOR";
"2 1 29958 29831 16475 XOR";
"2 1 16977 29831 16474 XOR";
"2 1 16475 16474 16473 AND";
"2 1 16473 29831 29832 XOR";
"2 1 29895 29832 223 XOR";
"2 1 223 16979 29391 XOR";
"2 1 29959 29832 16472 XOR";
"2 1 16978 29832 16471 XOR";
"2 1 16472 16471 16470 AND";
"2 1 16470 29832 29833 XOR";
"2 1 29896 29833 222 XOR";
"2 1 222 16980 29392 XOR";
"2 1 29960 29833 16469 XOR";
"2 1 16979 29833 16468 XOR";
"2 1 16469 16468 16467 AND";
"2 1 16467 29833 29834 XOR";
"2 1 29897 29834 221 XOR";
"2 1 221 16981 29393 XOR";
"2 1 29961 29834 16466 XOR";
"2 1 16980 29834 16465 XOR";
"2 1 16466 16465 16464 AND";
"2 1 16464 29834 29835 XOR";
"2 1 29898 29835 220 XOR";
"2 1 220 16982 29394 XOR";
"2 1 29962 29835 16463 XOR";
"2 1 16981 29835 16462 XOR";
"2 1 16463 16462 16461 AND";
"2 1 16461 29835 29836 XOR";
"2 1 29899 29836 219 XOR";
"2 1 219 16983 29395 XOR";
"2 1 29963 29836 16460 XOR";
"2 1 16982 29836 16459 XOR";
"2 1 16460 16459 16458 AND";
"2 1 16458 29836 29837 XOR";
"2 1 29900 29837 218 XOR";
"2 1 218 16984 29396 XOR";
"2 1 29964 29837 16457 XOR";
"2 1 16983 29837 16456 XOR";
"2 1 16457 16456 16455 AND";
"2 1 16455 29837 29838 XOR";
"2 1 29901 29838 217 XOR";
"2 1 217 16985 29397 XOR";
"2 1 29965 29838 16454 XOR";
"2 1 16984 29838 16453 XOR";
"2 1 16454 16453 16452 AND";
"2 1 16452 29838 29839 XOR";
"2 1 29902 29839 216 XOR";
"2 1 216 16986 29398 XOR";
"2 1 29966 29839 16451 XOR";
"2 1 16985 29839 16450 XOR";
"2 1 16451 16450 16449 AND";
"2 1 16449 29839 29840 XOR";
"2 1 29903 29840 215 XOR";
"2 1 215 16987 29399 XOR";
"2 1 29967 29840 16448 XOR";
"2 1 16986 29840 16447 XOR";
"2 1 16448 16447 16446 AND";
"2 1 16446 29840 29841 XOR";
"2 1 29904 29841 214 XOR";
"2 1 214 16988 29400 XOR";
"2 1 29968 29841 16445 XOR";
"2 1 16987 29841 16444 XOR";
"2 1 16445 16444 16443 AND";
"2 1 16443 29841 29842 XOR";
"2 1 29905 29842 213 XOR";
"2 1 213 16989 29401 XOR";
"2 1 29969 29842 16442 XOR";
"2 1 16988 29842 16441 XOR";
"2 1 16442 16441 16440 AND";
"2 1 16440 29842 29843 XOR";
"2 1 29906 29843 212 XOR";
"2 1 212 16990 29402 XOR";
"2 1 29970 29843 16439 XOR";
"2 1 16989 29843 16438 XOR";
"2 1 16439 16438 16437 AND";
"2 1 16437 29843 29844 XOR";
"2 1 29907 29844 211 XOR";
"2 1 211 16991 29403 XOR";
"2 1 29971 29844 16436 XOR";
"2 1 16990 29844 16435 XOR";
"2 1 16436 16435 16434 AND";
"2 1 16434 29844 29845 XOR";
"2 1 29908 29845 210 XOR";
"2 1 210 16992 29404 XOR";
"2 1 29972 29845 16433 XOR";
"2 1 16991 29845 16432 XOR";
"2 1 16433 16432 16431 AND";
"2 1 16431 29845 29846 XOR";
"2 1 29909 29846 209 XOR";
"2 1 209 16993 29405 XOR";
"2 1 29973 29846 16430 XOR";
"2 1 16992 29846 16429 XOR";
"2 1 16430 16429 16428 AND";
"2 1 16428 29846 29847 XOR";
"2 1 29910 29847 208 XOR";
"2 1 208 16994 29406 XOR";
"2 1 29974 29847 16427 XOR";
"2 1 16993 29847 16426 XOR";
"2 1 16427 16426 16425 AND";
"2 1 16425 29847 29848 XOR";
"2 1 29911 29848 207 XOR";
"2 1 207 16995 29407 XOR";
"2 1 29975 29848 16424 XOR";
"2 1 16994 29848 16423 XOR";
"2 1 16424 16423 16422 AND";
"2 1 16422 29848 29849 XOR";
"2 1 29912 29849 206 XOR";
"2 1 206 16996 29408 XOR";
"2 1 29976 29849 16421 XOR";
"2 1 16995 29849 16420 XOR";
"2 1 16421 16420 16419 AND";
"2 1 16419 29849 29850 XOR";
"2 1 29913 29850 205 XOR";
"2 1 205 16997 29409 XOR";
"2 1 29977 29850 16418 XOR";
"2 1 16996 29850 16417 XOR";
"2 1 16418 16417 16416 AND";
"2 1 16416 29850 29851 XOR";
"2 1 29914 29851 204 XOR";
"2 1 204 16998 29410 XOR";
"2 1 29978 29851 16415 XOR";
"2 1 16997 29851 16414 XOR";
"2 1 16415 16414 16413 AND";
"2 1 16413 29851 29852 XOR";
"2 1 29915 29852 203 XOR";
"2 1 203 16999 29411 XOR";
"2 1 29979 29852 16412 XOR";
"2 1 16998 29852 16411 XOR";
"2 1 16412 16411 16410 AND";
"2 1 16410 29852 29853 XOR";
"2 1 29916 29853 202 XOR";
"2 1 202 17000 29412 XOR";
"2 1 29980 29853 16409 XOR";
"2 1 16999 29853 16408 XOR";
"2 1 16409 16408 16407 AND";
"2 1 16407 29853 29854 XOR";
"2 1 29917 29854 201 XOR";
"2 1 201 17001 29413 XOR";
"2 1 29981 29854 16406 XOR";
"2 1 17000 29854 16405 XOR";
"2 1 16406 16405 16404 AND";
"2 1 16404 29854 29855 XOR";
"2 1 29918 29855 200 XOR";
"2 1 200 17002 29414 XOR";
"2 1 29982 29855 16403 XOR";
"2 1 17001 29855 16402 XOR";
"2 1 16403 16402 16401 AND";
"2 1 16401 29855 29856 XOR";
"2 1 29919 29856 199 XOR";
"2 1 199 17003 29415 XOR";
"2 1 29983 29856 16400 XOR";
"2 1 17002 29856 16399 XOR";
"2 1 16400 16399 16398 AND";
"2 1 16398 29856 29857 XOR";
"2 1 29920 29857 198 XOR";
"2 1 198 17004 29416 XOR";
"2 1 29984 29857 16397 XOR";
"2 1 17003 29857 16396 XOR";
"2 1 16397 16396 16395 AND";
"2 1 16395 29857 29858 XOR";
"2 1 29921 29858 197 XOR";
"2 1 197 17005 29417 XOR";
"2 1 29985 29858 16394 XOR";
"2 1 17004 29858 16393 XOR";
"2 1 16394 16393 16392 AND";
"2 1 16392 29858 29859 XOR";
"2 1 29922 29859 196 XOR";
"2 1 196 17006 29418 XOR";
"2 1 29986 29859 16391 XOR";
"2 1 17005 29859 16390 XOR";
"2 1 16391 16390 16389 AND";
"2 1 16389 29859 29860 XOR";
"2 1 29923 29860 195 XOR";
"2 1 195 17007 29419 XOR";
"2 1 29987 29860 16388 XOR";
"2 1 17006 29860 16387 XOR";
"2 1 16388 16387 16386 AND";
"2 1 16386 29860 29861 XOR";
"2 1 29924 29861 194 XOR";
"2 1 194 17008 29420 XOR";
"2 1 29988 29861 16385 XOR";
"2 1 17007 29861 16384 XOR";
"2 1 16385 16384 16383 AND";
"2 1 16383 29861 29862 XOR";
"2 1 29925 29862 193 XOR";
"2 1 193 17009 29421 XOR";
"2 1 29989 29862 16382 XOR";
"2 1 17008 29862 16381 XOR";
"2 1 16382 16381 16380 AND";
"2 1 16380 29862 29863 XOR";
"2 1 29926 29863 130 XOR";
"1 1 130 16692 INV";
"2 1 16881 16692 29422 XOR";
"2 1 255 16692 29423 XOR";
"2 1 254 16692 29424 XOR";
"2 1 253 16692 29425 XOR";
"2 1 252 16692 29426 XOR";
"2 1 251 16692 29427 XOR";
"2 1 250 16692 29428 XOR";
"2 1 249 16692 29429 XOR";
"2 1 248 16692 29430 XOR";
"2 1 247 16692 29431 XOR";
"2 1 246 16692 29432 XOR";
"2 1 245 16692 29433 XOR";
"2 1 244 16692 29434 XOR";
"2 1 243 16692 29435 XOR";
"2 1 242 16692 29436 XOR";
"2 1 241 16692 29437 XOR";
"2 1 240 16692 29438 XOR";
"2 1 239 16692 29439 XOR";
"2 1 238 16692 29440 XOR";
"2 1 237 16692 29441 XOR";
"2 1 236 16692 29442 XOR";
"2 1 235 16692 29443 XOR";
"2 1 234 16692 29444 XOR";
"2 1 233 16692 29445 XOR";
"2 1 232 16692 29446 XOR";
"2 1 231 16692 29447 XOR";
"2 1 230 16692 29448 XOR";
"2 1 229 16692 29449 XOR";
"2 1 228 16692 29450 XOR";
"2 1 227 16692 29451 XOR";
"2 1 226 16692 29452 XOR";
"2 1 225 16692 29453 XOR";
"2 1 224 16692 29454 XOR";
"2 1 223 16692 29455 XOR";
"2 1 222 16692 29456 XOR";
"2 1 221 16692 29457 XOR";
"2 1 220 16692 29458 XOR";
"2 1 219 16692 29459 XOR";
"2 1 218 16692 29460 XOR";
"2 1 217 16692 29461 XOR";
"2 1 216 16692 29462 XOR";
"2 1 215 16692 29463 XOR";
"2 1 214 16692 29464 XOR";
"2 1 213 16692 29465 XOR";
"2 1 212 16692 29466 XOR";
"2 1 211 16692 29467 XOR";
"2 1 210 16692 29468 XOR";
"2 1 209 16692 29469 XOR";
"2 1 208 16692 29470 XOR";
"2 1 207 16692 29471 XOR";
"2 1 206 16692 29472 XOR";
"2 1 205 16692 29473 XOR";
"2 1 204 16692 29474 XOR";
"2 1 203 16692 29475 XOR";
"2 1 202 16692 29476 XOR";
"2 1 201 16692 29477 XOR";
"2 1 200 16692 29478 XOR";
"2 1 199 16692 29479 XOR";
"2 1 198 16692 29480 XOR";
"2 1 197 16692 29481 XOR";
"2 1 196 16692 29482 XOR";
"2 1 195 16692 29483 XOR";
"2 1 194 16692 29484 XOR";
"2 1 29422 16946 29296 AND";
"2 1 29359 29296 317 XOR";
"2 1 317 16948 29171 XOR";
"2 1 29423 29296 16254 XOR";
"2 1 16947 29296 16253 XOR";
"2 1 16254 16253 16252 AND";
"2 1 16252 29296 29297 XOR";
"2 1 29360 29297 316 XOR";
"2 1 316 16949 29172 XOR";
"2 1 29424 29297 16251 XOR";
"2 1 16948 29297 16250 XOR";
"2 1 16251 16250 16249 AND";
"2 1 16249 29297 29298 XOR";
"2 1 29361 29298 315 XOR";
"2 1 315 16950 29173 XOR";
"2 1 29425 29298 16248 XOR";
"2 1 16949 29298 16247 XOR";
"2 1 16248 16247 16246 AND";
"2 1 16246 29298 29299 XOR";
"2 1 29362 29299 314 XOR";
"2 1 314 16951 29174 XOR";
"2 1 29426 29299 16245 XOR";
"2 1 16950 29299 16244 XOR";
"2 1 16245 16244 16243 AND";
"2 1 16243 29299 29300 XOR";
"2 1 29363 29300 313 XOR";
"2 1 313 16952 29175 XOR";
"2 1 29427 29300 16242 XOR";
"2 1 16951 29300 16241 XOR";
"2 1 16242 16241 16240 AND";
"2 1 16240 29300 29301 XOR";
"2 1 29364 29301 312 XOR";
"2 1 312 16953 29176 XOR";
"2 1 29428 29301 16239 XOR";
"2 1 16952 29301 16238 XOR";
"2 1 16239 16238 16237 AND";
"2 1 16237 29301 29302 XOR";
"2 1 29365 29302 311 XOR";
"2 1 311 16954 29177 XOR";
"2 1 29429 29302 16236 XOR";
"2 1 16953 29302 16235 XOR";
"2 1 16236 16235 16234 AND";
"2 1 16234 29302 29303 XOR";
"2 1 29366 29303 310 XOR";
"2 1 310 16955 29178 XOR";
"2 1 29430 29303 16233 XOR";
"2 1 16954 29303 16232 XOR";
"2 1 16233 16232 16231 AND";
"2 1 16231 29303 29304 XOR";
"2 1 29367 29304 309 XOR";
"2 1 309 16956 29179 XOR";
"2 1 29431 29304 16230 XOR";
"2 1 16955 29304 16229 XOR";
"2 1 16230 16229 16228 AND";
"2 1 16228 29304 29305 XOR";
"2 1 29368 29305 308 XOR";
"2 1 308 16957 29180 XOR";
"2 1 29432 29305 16227 XOR";
"2 1 16956 29305 16226 XOR";
"2 1 16227 16226 16225 AND";
"2 1 16225 29305 29306 XOR";
"2 1 29369 29306 307 XOR";
"2 1 307 16958 29181 XOR";
"2 1 29433 29306 16224 XOR";
"2 1 16957 29306 16223 XOR";
"2 1 16224 16223 16222 AND";
"2 1 16222 29306 29307 XOR";
"2 1 29370 29307 306 XOR";
"2 1 306 16959 29182 XOR";
"2 1 29434 29307 16221 XOR";
"2 1 16958 29307 16220 XOR";
"2 1 16221 16220 16219 AND";
"2 1 16219 29307 29308 XOR";
"2 1 29371 29308 305 XOR";
"2 1 305 16960 29183 XOR";
"2 1 29435 29308 16218 XOR";
"2 1 16959 29308 16217 XOR";
"2 1 16218 16217 16216 AND";
"2 1 16216 29308 29309 XOR";
"2 1 29372 29309 304 XOR";
"2 1 304 16961 29184 XOR";
"2 1 29436 29309 16215 XOR";
"2 1 16960 29309 16214 XOR";
"2 1 16215 16214 16213 AND";
"2 1 16213 29309 29310 XOR";
"2 1 29373 29310 303 XOR";
"2 1 303 16962 29185 XOR";
"2 1 29437 29310 16212 XOR";
"2 1 16961 29310 16211 XOR";
"2 1 16212 16211 16210 AND";
"2 1 16210 29310 29311 XOR";
"2 1 29374 29311 302 XOR";
"2 1 302 16963 29186 XOR";
"2 1 29438 29311 16209 XOR";
"2 1 16962 29311 16208 XOR";
"2 1 16209 16208 16207 AND";
"2 1 16207 29311 29312 XOR";
"2 1 29375 29312 301 XOR";
"2 1 301 16964 29187 XOR";
"2 1 29439 29312 16206 XOR";
"2 1 16963 29312 16205 XOR";
"2 1 16206 16205 16204 AND";
"2 1 16204 29312 29313 XOR";
"2 1 29376 29313 300 XOR";
"2 1 300 16965 29188 XOR";
"2 1 29440 29313 16203 XOR";
"2 1 16964 29313 16202 XOR";
"2 1 16203 16202 16201 AND";
"2 1 16201 29313 29314 XOR";
"2 1 29377 29314 299 XOR";
"2 1 299 16966 29189 XOR";
"2 1 29441 29314 16200 XOR";
"2 1 16965 29314 16199 XOR";
"2 1 16200 16199 16198 AND";
"2 1 16198 29314 29315 XOR";
"2 1 29378 29315 298 XOR";
"2 1 298 16967 29190 XOR";
"2 1 29442 29315 16197 XOR";
"2 1 16966 29315 16196 XOR";
"2 1 16197 16196 16195 AND";
"2 1 16195 29315 29316 XOR";
"2 1 29379 29316 297 XOR";
"2 1 297 16968 29191 XOR";
"2 1 29443 29316 16194 XOR";
"2 1 16967 29316 16193 XOR";
"2 1 16194 16193 16192 AND";
"2 1 16192 29316 29317 XOR";
"2 1 29380 29317 296 XOR";
"2 1 296 16969 29192 XOR";
"2 1 29444 29317 16191 XOR";
"2 1 16968 29317 16190 XOR";
"2 1 16191 16190 16189 AND";
"2 1 16189 29317 29318 XOR";
"2 1 29381 29318 295 XOR";
"2 1 295 16970 29193 XOR";
"2 1 29445 29318 16188 XOR";
"2 1 16969 29318 16187 XOR";
"2 1 16188 16187 16186 AND";
"2 1 16186 29318 29319 XOR";
"2 1 29382 29319 294 XOR";
"2 1 294 16971 29194 XOR";
"2 1 29446 29319 16185 XOR";
"2 1 16970 29319 16184 XOR";
"2 1 16185 16184 16183 AND";
"2 1 16183 29319 29320 XOR";
"2 1 29383 29320 293 XOR";
"2 1 293 16972 29195 XOR";
"2 1 29447 29320 16182 XOR";
"2 1 16971 29320 16181 XOR";
"2 1 16182 16181 16180 AND";
"2 1 16180 29320 29321 XOR";
"2 1 29384 29321 292 XOR";
"2 1 292 16973 29196 XOR";
"2 1 29448 29321 16179 XOR";
"2 1 16972 29321 16178 XOR";
"2 1 16179 16178 16177 AND";
"2 1 16177 29321 29322 XOR";
"2 1 29385 29322 291 XOR";
"2 1 291 16974 29197 XOR";
"2 1 29449 29322 16176 XOR";
"2 1 16973 29322 16175 XOR";
"2 1 16176 16175 16174 AND";
"2 1 16174 29322 29323 XOR";
"2 1 29386 29323 290 XOR";
"2 1 290 16975 29198 XOR";
"2 1 29450 29323 16173 XOR";
"2 1 16974 29323 16172 XOR";
"2 1 16173 16172 16171 AND";
"2 1 16171 29323 29324 XOR";
"2 1 29387 29324 289 XOR";
"2 1 289 16976 29199 XOR";
"2 1 29451 29324 16170 XOR";
"2 1 16975 29324 16169 XOR";
"2 1 16170 16169 16168 AND";
"2 1 16168 29324 29325 XOR";
"2 1 29388 29325 288 XOR";
"2 1 288 16977 29200 XOR";
"2 1 29452 29325 16167 XOR";
"2 1 16976 29325 16166 XOR";
"2 1 16167 16166 16165 AND";
"2 1 16165 29325 29326 XOR";
"2 1 29389 29326 287 XOR";
"2 1 287 16978 29201 XOR";
"2 1 29453 29326 16164 XOR";
"2 1 16977 29326 16163 XOR";
"2 1 16164 16163 16162 AND";
"2 1 16162 29326 29327 XOR";
"2 1 29390 29327 286 XOR";
"2 1 286 16979 29202 XOR";
"2 1 29454 29327 16161 XOR";
"2 1 16978 29327 16160 XOR";
"2 1 16161 16160 16159 AND";
"2 1 16159 29327 29328 XOR";
"2 1 29391 29328 285 XOR";
"2 1 285 16980 29203 XOR";
"2 1 29455 29328 16158 XOR";
"2 1 16979 29328 16157 XOR";
"2 1 16158 16157 16156 AND";
"2 1 16156 29328 29329 XOR";
"2 1 29392 29329 284 XOR";
"2 1 284 16981 29204 XOR";
"2 1 29456 29329 16155 XOR";
"2 1 16980 29329 16154 XOR";
"2 1 16155 16154 16153 AND";
"2 1 16153 29329 29330 XOR";
"2 1 29393 29330 283 XOR";
"2 1 283 16982 29205 XOR";
"2 1 29457 29330 16152 XOR";
"2 1 16981 29330 16151 XOR";
"2 1 16152 16151 16150 AND";
"2 1 16150 29330 29331 XOR";
"2 1 29394 29331 282 XOR";
"2 1 282 16983 29206 XOR";
"2 1 29458 29331 16149 XOR";
"2 1 16982 29331 16148 XOR";
"2 1 16149 16148 16147 AND";
"2 1 16147 29331 29332 XOR";
"2 1 29395 29332 281 XOR";
"2 1 281 16984 29207 XOR";
"2 1 29459 29332 16146 XOR";
"2 1 16983 29332 16145 XOR";
"2 1 16146 16145 16144 AND";
"2 1 16144 29332 29333 XOR";
"2 1 29396 29333 280 XOR";
"2 1 280 16985 29208 XOR";
"2 1 29460 29333 16143 XOR";
"2 1 16984 29333 16142 XOR";
"2 1 16143 16142 16141 AND";
"2 1 16141 29333 29334 XOR";
"2 1 29397 29334 279 XOR";
"2 1 279 16986 29209 XOR";
"2 1 29461 29334 16140 XOR";
"2 1 16985 29334 16139 XOR";
"2 1 16140 16139 16138 AND";
"2 1 16138 29334 29335 XOR";
"2 1 29398 29335 278 XOR";
"2 1 278 16987 29210 XOR";
"2 1 29462 29335 16137 XOR";
"2 1 16986 29335 16136 XOR";
"2 1 16137 16136 16135 AND";
"2 1 16135 29335 29336 XOR";
"2 1 29399 29336 277 XOR";
"2 1 277 16988 29211 XOR";
"2 1 29463 29336 16134 XOR";
"2 1 16987 29336 16133 XOR";
"2 1 16134 16133 16132 AND";
"2 1 16132 29336 29337 XOR";
"2 1 29400 29337 276 XOR";
"2 1 276 16989 29212 XOR";
"2 1 29464 29337 16131 XOR";
"2 1 16988 29337 16130 XOR";
"2 1 16131 16130 16129 AND";
"2 1 16129 29337 29338 XOR";
"2 1 29401 29338 275 XOR";
"2 1 275 16990 29213 XOR";
"2 1 29465 29338 16128 XOR";
"2 1 16989 29338 16127 XOR";
"2 1 16128 16127 16126 AND";
"2 1 16126 29338 29339 XOR";
"2 1 29402 29339 274 XOR";
"2 1 274 16991 29214 XOR";
"2 1 29466 29339 16125 XOR";
"2 1 16990 29339 16124 XOR";
"2 1 16125 16124 16123 AND";
"2 1 16123 29339 29340 XOR";
"2 1 29403 29340 273 XOR";
"2 1 273 16992 29215 XOR";
"2 1 29467 29340 16122 XOR";
"2 1 16991 29340 16121 XOR";
"2 1 16122 16121 16120 AND";
"2 1 16120 29340 29341 XOR";
"2 1 29404 29341 272 XOR";
"2 1 272 16993 29216 XOR";
"2 1 29468 29341 16119 XOR";
"2 1 16992 29341 16118 XOR";
"2 1 16119 16118 16117 AND";
"2 1 16117 29341 29342 XOR";
"2 1 29405 29342 271 XOR";
"2 1 271 16994 29217 XOR";
"2 1 29469 29342 16116 XOR";
"2 1 16993 29342 16115 XOR";
"2 1 16116 16115 16114 AND";
"2 1 16114 29342 29343 XOR";
"2 1 29406 29343 270 XOR";
"2 1 270 16995 29218 XOR";
"2 1 29470 29343 16113 XOR";
"2 1 16994 29343 16112 XOR";
"2 1 16113 16112 16111 AND";
"2 1 16111 29343 29344 XOR";
"2 1 29407 29344 269 XOR";
"2 1 269 16996 29219 XOR";
"2 1 29471 29344 16110 XOR";
"2 1 16995 29344 16109 XOR";
"2 1 16110 16109 16108 AND";
"2 1 16108 29344 29345 XOR";
"2 1 29408 29345 268 XOR";
"2 1 268 16997 29220 XOR";
"2 1 29472 29345 16107 XOR";
"2 1 16996 29345 16106 XOR";
"2 1 16107 16106 16105 AND";
"2 1 16105 29345 29346 XOR";
"2 1 29409 29346 267 XOR";
"2 1 267 16998 29221 XOR";
"2 1 29473 29346 16104 XOR";
"2 1 16997 29346 16103 XOR";
"2 1 16104 16103 16102 AND";
"2 1 16102 29346 29347 XOR";
"2 1 29410 29347 266 XOR";
"2 1 266 16999 29222 XOR";
"2 1 29474 29347 16101 XOR";
"2 1 16998 29347 16100 XOR";
"2 1 16101 16100 16099 AND";
"2 1 16099 29347 29348 XOR";
"2 1 29411 29348 265 XOR";
"2 1 265 17000 29223 XOR";
"2 1 29475 29348 16098 XOR";
"2 1 16999 29348 16097 XOR";
"2 1 16098 16097 16096 AND";
"2 1 16096 29348 29349 XOR";
"2 1 29412 29349 264 XOR";
"2 1 264 17001 29224 XOR";
"2 1 29476 29349 16095 XOR";
"2 1 17000 29349 16094 XOR";
"2 1 16095 16094 16093 AND";
"2 1 16093 29349 29350 XOR";
"2 1 29413 29350 263 XOR";
"2 1 263 17002 29225 XOR";
"2 1 29477 29350 16092 XOR";
"2 1 17001 29350 16091 XOR";
"2 1 16092 16091 16090 AND";
"2 1 16090 29350 29351 XOR";
"2 1 29414 29351 262 XOR";
"2 1 262 17003 29226 XOR";
"2 1 29478 29351 16089 XOR";
"2 1 17002 29351 16088 XOR";
"2 1 16089 16088 16087 AND";
"2 1 16087 29351 29352 XOR";
"2 1 29415 29352 261 XOR";
"2 1 261 17004 29227 XOR";
"2 1 29479 29352 16086 XOR";
"2 1 17003 29352 16085 XOR";
"2 1 16086 16085 16084 AND";
"2 1 16084 29352 29353 XOR";
"2 1 29416 29353 260 XOR";
"2 1 260 17005 29228 XOR";
"2 1 29480 29353 16083 XOR";
"2 1 17004 29353 16082 XOR";
"2 1 16083 16082 16081 AND";
"2 1 16081 29353 29354 XOR";
"2 1 29417 29354 259 XOR";
"2 1 259 17006 29229 XOR";
"2 1 29481 29354 16080 XOR";
"2 1 17005 29354 16079 XOR";
"2 1 16080 16079 16078 AND";
"2 1 16078 29354 29355 XOR";
"2 1 29418 29355 258 XOR";
"2 1 258 17007 29230 XOR";
"2 1 29482 29355 16077 XOR";
"2 1 17006 29355 16076 XOR";
"2 1 16077 16076 16075 AND";
"2 1 16075 29355 29356 XOR";
"2 1 29419 29356 257 XOR";
"2 1 257 17008 29231 XOR";
"2 1 29483 29356 16074 XOR";
"2 1 17007 29356 16073 XOR";
"2 1 16074 16073 16072 AND";
"2 1 16072 29356 29357 XOR";
"2 1 29420 29357 256 XOR";
"2 1 256 17009 29232 XOR";
"2 1 29484 29357 16071 XOR";
"2 1 17008 29357 16070 XOR";
"2 1 16071 16070 16069 AND";
"2 1 16069 29357 29358 XOR";
"2 1 29421 29358 131 XOR";
"2 1 16692 4535 17576 AND";
"1 1 131 16691 INV";
"2 1 16880 16691 29233 XOR";
"2 1 318 16691 29234 XOR";
"2 1 317 16691 29235 XOR";
"2 1 316 16691 29236 XOR";
"2 1 315 16691 29237 XOR";
"2 1 314 16691 29238 XOR";
"2 1 313 16691 29239 XOR";
"2 1 312 16691 29240 XOR";
"2 1 311 16691 29241 XOR";
"2 1 310 16691 29242 XOR";
"2 1 309 16691 29243 XOR";
"2 1 308 16691 29244 XOR";
"2 1 307 16691 29245 XOR";
"2 1 306 16691 29246 XOR";
"2 1 305 16691 29247 XOR";
"2 1 304 16691 29248 XOR";
"2 1 303 16691 29249 XOR";
"2 1 302 16691 29250 XOR";
"2 1 301 16691 29251 XOR";
"2 1 300 16691 29252 XOR";
"2 1 299 16691 29253 XOR";
"2 1 298 16691 29254 XOR";
"2 1 297 16691 29255 XOR";
"2 1 296 16691 29256 XOR";
"2 1 295 16691 29257 XOR";
"2 1 294 16691 29258 XOR";
"2 1 293 16691 29259 XOR";
"2 1 292 16691 29260 XOR";
"2 1 291 16691 29261 XOR";
"2 1 290 16691 29262 XOR";
"2 1 289 16691 29263 XOR";
"2 1 288 16691 29264 XOR";
"2 1 287 16691 29265 XOR";
"2 1 286 16691 29266 XOR";
"2 1 285 16691 29267 XOR";
"2 1 284 16691 29268 XOR";
"2 1 283 16691 29269 XOR";
"2 1 282 16691 29270 XOR";
"2 1 281 16691 29271 XOR";
"2 1 280 16691 29272 XOR";
"2 1 279 16691 29273 XOR";
"2 1 278 16691 29274 XOR";
"2 1 277 16691 29275 XOR";
"2 1 276 16691 29276 XOR";
"2 1 275 16691 29277 XOR";
"2 1 274 16691 29278 XOR";
"2 1 273 16691 29279 XOR";
"2 1 272 16691 29280 XOR";
"2 1 271 16691 29281 XOR";
"2 1 270 16691 29282 XOR";
"2 1 269 16691 29283 XOR";
"2 1 268 16691 29284 XOR";
"2 1 267 16691 29285 XOR";
"2 1 266 16691 29286 XOR";
"2 1 265 16691 29287 XOR";
"2 1 264 16691 29288 XOR";
"2 1 263 16691 29289 XOR";
"2 1 262 16691 29290 XOR";
"2 1 261 16691 29291 XOR";
"2 1 260 16691 29292 XOR";
"2 1 259 16691 29293 XOR";
"2 1 258 16691 29294 XOR";
"2 1 257 16691 29295 XOR";
"2 1 29233 16946 29107 AND";
"2 1 29170 29107 380 XOR";
"2 1 380 16948 28982 XOR";
"2 1 29234 29107 16068 XOR";
"2 1 16947 29107 16067 XOR";
"2 1 16068 16067 16066 AND";
"2 1 16066 29107 29108 XOR";
"2 1 29171 29108 379 XOR";
"2 1 379 16949 28983 XOR";
"2 1 29235 29108 16065 XOR";
"2 1 16948 29108 16064 XOR";
"2 1 16065 16064 16063 AND";
"2 1 16063 29108 29109 XOR";
"2 1 29172 29109 378 XOR";
"2 1 378 16950 28984 XOR";
"2 1 29236 29109 16062 XOR";
"2 1 16949 29109 16061 XOR";
"2 1 16062 16061 16060 AND";
"2 1 16060 29109 29110 XOR";
"2 1 29173 29110 377 XOR";
"2 1 377 16951 28985 XOR";
"2 1 29237 29110 16059 XOR";
"2 1 16950 29110 16058 XOR";
"2 1 16059 16058 16057 AND";
"2 1 16057 29110 29111 XOR";
"2 1 29174 29111 376 XOR";
"2 1 376 16952 28986 XOR";
"2 1 29238 29111 16056 XOR";
"2 1 16951 29111 16055 XOR";
"2 1 16056 16055 16054 AND";
"2 1 16054 29111 29112 XOR";
"2 1 29175 29112 375 XOR";
"2 1 375 16953 28987 XOR";
"2 1 29239 29112 16053 XOR";
"2 1 16952 29112 16052 XOR";
"2 1 16053 16052 16051 AND";
"2 1 16051 29112 29113 XOR";
"2 1 29176 29113 374 XOR";
"2 1 374 16954 28988 XOR";
"2 1 29240 29113 16050 XOR";
"2 1 16953 29113 16049 XOR";
"2 1 16050 16049 16048 AND";
"2 1 16048 29113 29114 XOR";
"2 1 29177 29114 373 XOR";
"2 1 373 16955 28989 XOR";
"2 1 29241 29114 16047 XOR";
"2 1 16954 29114 16046 XOR";
"2 1 16047 16046 16045 AND";
"2 1 16045 29114 29115 XOR";
"2 1 29178 29115 372 XOR";
"2 1 372 16956 28990 XOR";
"2 1 29242 29115 16044 XOR";
"2 1 16955 29115 16043 XOR";
"2 1 16044 16043 16042 AND";
"2 1 16042 29115 29116 XOR";
"2 1 29179 29116 371 XOR";
"2 1 371 16957 28991 XOR";
"2 1 29243 29116 16041 XOR";
"2 1 16956 29116 16040 XOR";
"2 1 16041 16040 16039 AND";
"2 1 16039 29116 29117 XOR";
"2 1 29180 29117 370 XOR";
"2 1 370 16958 28992 XOR";
"2 1 29244 29117 16038 XOR";
"2 1 16957 29117 16037 XOR";
"2 1 16038 16037 16036 AND";
"2 1 16036 29117 29118 XOR";
"2 1 29181 29118 369 XOR";
"2 1 369 16959 28993 XOR";
"2 1 29245 29118 16035 XOR";
"2 1 16958 29118 16034 XOR";
"2 1 16035 16034 16033 AND";
"2 1 16033 29118 29119 XOR";
"2 1 29182 29119 368 XOR";
"2 1 368 16960 28994 XOR";
"2 1 29246 29119 16032 XOR";
"2 1 16959 29119 16031 XOR";
"2 1 16032 16031 16030 AND";
"2 1 16030 29119 29120 XOR";
"2 1 29183 29120 367 XOR";
"2 1 367 16961 28995 XOR";
"2 1 29247 29120 16029 XOR";
"2 1 16960 29120 16028 XOR";
"2 1 16029 16028 16027 AND";
"2 1 16027 29120 29121 XOR";
"2 1 29184 29121 366 XOR";
"2 1 366 16962 28996 XOR";
"2 1 29248 29121 16026 XOR";
"2 1 16961 29121 16025 XOR";
"2 1 16026 16025 16024 AND";
"2 1 16024 29121 29122 XOR";
"2 1 29185 29122 365 XOR";
"2 1 365 16963 28997 XOR";
"2 1 29249 29122 16023 XOR";
"2 1 16962 29122 16022 XOR";
"2 1 16023 16022 16021 AND";
"2 1 16021 29122 29123 XOR";
"2 1 29186 29123 364 XOR";
"2 1 364 16964 28998 XOR";
"2 1 29250 29123 16020 XOR";
"2 1 16963 29123 16019 XOR";
"2 1 16020 16019 16018 AND";
"2 1 16018 29123 29124 XOR";
"2 1 29187 29124 363 XOR";
"2 1 363 16965 28999 XOR";
"2 1 29251 29124 16017 XOR";
"2 1 16964 29124 16016 XOR";
"2 1 16017 16016 16015 AND";
"2 1 16015 29124 29125 XOR";
"2 1 29188 29125 362 XOR";
"2 1 362 16966 29000 XOR";
"2 1 29252 29125 16014 XOR";
"2 1 16965 29125 16013 XOR";
"2 1 16014 16013 16012 AND";
"2 1 16012 29125 29126 XOR";
"2 1 29189 29126 361 XOR";
"2 1 361 16967 29001 XOR";
"2 1 29253 29126 16011 XOR";
"2 1 16966 29126 16010 XOR";
"2 1 16011 16010 16009 AND";
"2 1 16009 29126 29127 XOR";
"2 1 29190 29127 360 XOR";
"2 1 360 16968 29002 XOR";
"2 1 29254 29127 16008 XOR";
"2 1 16967 29127 16007 XOR";
"2 1 16008 16007 16006 AND";
"2 1 16006 29127 29128 XOR";
"2 1 29191 29128 359 XOR";
"2 1 359 16969 29003 XOR";
"2 1 29255 29128 16005 XOR";
"2 1 16968 29128 16004 XOR";
"2 1 16005 16004 16003 AND";
"2 1 16003 29128 29129 XOR";
"2 1 29192 29129 358 XOR";
"2 1 358 16970 29004 XOR";
"2 1 29256 29129 16002 XOR";
"2 1 16969 29129 16001 XOR";
"2 1 16002 16001 16000 AND";
"2 1 16000 29129 29130 XOR";
"2 1 29193 29130 357 XOR";
"2 1 357 16971 29005 XOR";
"2 1 29257 29130 15999 XOR";
"2 1 16970 29130 15998 XOR";
"2 1 15999 15998 15997 AND";
"2 1 15997 29130 29131 XOR";
"2 1 29194 29131 356 XOR";
"2 1 356 16972 29006 XOR";
"2 1 29258 29131 15996 XOR";
"2 1 16971 29131 15995 XOR";
"2 1 15996 15995 15994 AND";
"2 1 15994 29131 29132 XOR";
"2 1 29195 29132 355 XOR";
"2 1 355 16973 29007 XOR";
"2 1 29259 29132 15993 XOR";
"2 1 16972 29132 15992 XOR";
"2 1 15993 15992 15991 AND";
"2 1 15991 29132 29133 XOR";
"2 1 29196 29133 354 XOR";
"2 1 354 16974 29008 XOR";
"2 1 29260 29133 15990 XOR";
"2 1 16973 29133 15989 XOR";
"2 1 15990 15989 15988 AND";
"2 1 15988 29133 29134 XOR";
"2 1 29197 29134 353 XOR";
"2 1 353 16975 29009 XOR";
"2 1 29261 29134 15987 XOR";
"2 1 16974 29134 15986 XOR";
"2 1 15987 15986 15985 AND";
"2 1 15985 29134 29135 XOR";
"2 1 29198 29135 352 XOR";
"2 1 352 16976 29010 XOR";
"2 1 29262 29135 15984 XOR";
"2 1 16975 29135 15983 XOR";
"2 1 15984 15983 15982 AND";
"2 1 15982 29135 29136 XOR";
"2 1 29199 29136 351 XOR";
"2 1 351 16977 29011 XOR";
"2 1 29263 29136 15981 XOR";
"2 1 16976 29136 15980 XOR";
"2 1 15981 15980 15979 AND";
"2 1 15979 29136 29137 XOR";
"2 1 29200 29137 350 XOR";
"2 1 350 16978 29012 XOR";
"2 1 29264 29137 15978 XOR";
"2 1 16977 29137 15977 XOR";
"2 1 15978 15977 15976 AND";
"2 1 15976 29137 29138 XOR";
"2 1 29201 29138 349 XOR";
"2 1 349 16979 29013 XOR";
"2 1 29265 29138 15975 XOR";
"2 1 16978 29138 15974 XOR";
"2 1 15975 15974 15973 AND";
"2 1 15973 29138 29139 XOR";
"2 1 29202 29139 348 XOR";
"2 1 348 16980 29014 XOR";
"2 1 29266 29139 15972 XOR";
"2 1 16979 29139 15971 XOR";
"2 1 15972 15971 15970 AND";
"2 1 15970 29139 29140 XOR";
"2 1 29203 29140 347 XOR";
"2 1 347 16981 29015 XOR";
"2 1 29267 29140 15969 XOR";
"2 1 16980 29140 15968 XOR";
"2 1 15969 15968 15967 AND";
"2 1 15967 29140 29141 XOR";
"2 1 29204 29141 346 XOR";
"2 1 346 16982 29016 XOR";
"2 1 29268 29141 15966 XOR";
"2 1 16981 29141 15965 XOR";
"2 1 15966 15965 15964 AND";
"2 1 15964 29141 29142 XOR";
"2 1 29205 29142 345 XOR";
"2 1 345 16983 29017 XOR";
"2 1 29269 29142 15963 XOR";
"2 1 16982 29142 15962 XOR";
"2 1 15963 15962 15961 AND";
"2 1 15961 29142 29143 XOR";
"2 1 29206 29143 344 XOR";
"2 1 344 16984 29018 XOR";
"2 1 29270 29143 15960 XOR";
"2 1 16983 29143 15959 XOR";
"2 1 15960 15959 15958 AND";
"2 1 15958 29143 29144 XOR";
"2 1 29207 29144 343 XOR";
"2 1 343 16985 29019 XOR";
"2 1 29271 29144 15957 XOR";
"2 1 16984 29144 15956 XOR";
"2 1 15957 15956 15955 AND";
"2 1 15955 29144 29145 XOR";
"2 1 29208 29145 342 XOR";
"2 1 342 16986 29020 XOR";
"2 1 29272 29145 15954 XOR";
"2 1 16985 29145 15953 XOR";
"2 1 15954 15953 15952 AND";
"2 1 15952 29145 29146 XOR";
"2 1 29209 29146 341 XOR";
"2 1 341 16987 29021 XOR";
"2 1 29273 29146 15951 XOR";
"2 1 16986 29146 15950 XOR";
"2 1 15951 15950 15949 AND";
"2 1 15949 29146 29147 XOR";
"2 1 29210 29147 340 XOR";
"2 1 340 16988 29022 XOR";
"2 1 29274 29147 15948 XOR";
"2 1 16987 29147 15947 XOR";
"2 1 15948 15947 15946 AND";
"2 1 15946 29147 29148 XOR";
"2 1 29211 29148 339 XOR";
"2 1 339 16989 29023 XOR";
"2 1 29275 29148 15945 XOR";
"2 1 16988 29148 15944 XOR";
"2 1 15945 15944 15943 AND";
"2 1 15943 29148 29149 XOR";
"2 1 29212 29149 338 XOR";
"2 1 338 16990 29024 XOR";
"2 1 29276 29149 15942 XOR";
"2 1 16989 29149 15941 XOR";
"2 1 15942 15941 15940 AND";
"2 1 15940 29149 29150 XOR";
"2 1 29213 29150 337 XOR";
"2 1 337 16991 29025 XOR";
"2 1 29277 29150 15939 XOR";
"2 1 16990 29150 15938 XOR";
"2 1 15939 15938 15937 AND";
"2 1 15937 29150 29151 XOR";
"2 1 29214 29151 336 XOR";
"2 1 336 16992 29026 XOR";
"2 1 29278 29151 15936 XOR";
"2 1 16991 29151 15935 XOR";
"2 1 15936 15935 15934 AND";
"2 1 15934 29151 29152 XOR";
"2 1 29215 29152 335 XOR";
"2 1 335 16993 29027 XOR";
"2 1 29279 29152 15933 XOR";
"2 1 16992 29152 15932 XOR";
"2 1 15933 15932 15931 AND";
"2 1 15931 29152 29153 XOR";
"2 1 29216 29153 334 XOR";
"2 1 334 16994 29028 XOR";
"2 1 29280 29153 15930 XOR";
"2 1 16993 29153 15929 XOR";
"2 1 15930 15929 15928 AND";
"2 1 15928 29153 29154 XOR";
"2 1 29217 29154 333 XOR";
"2 1 333 16995 29029 XOR";
"2 1 29281 29154 15927 XOR";
"2 1 16994 29154 15926 XOR";
"2 1 15927 15926 15925 AND";
"2 1 15925 29154 29155 XOR";
"2 1 29218 29155 332 XOR";
"2 1 332 16996 29030 XOR";
"2 1 29282 29155 15924 XOR";
"2 1 16995 29155 15923 XOR";
"2 1 15924 15923 15922 AND";
"2 1 15922 29155 29156 XOR";
"2 1 29219 29156 331 XOR";
"2 1 331 16997 29031 XOR";
"2 1 29283 29156 15921 XOR";
"2 1 16996 29156 15920 XOR";
"2 1 15921 15920 15919 AND";
"2 1 15919 29156 29157 XOR";
"2 1 29220 29157 330 XOR";
"2 1 330 16998 29032 XOR";
"2 1 29284 29157 15918 XOR";
"2 1 16997 29157 15917 XOR";
"2 1 15918 15917 15916 AND";
"2 1 15916 29157 29158 XOR";
"2 1 29221 29158 329 XOR";
"2 1 329 16999 29033 XOR";
"2 1 29285 29158 15915 XOR";
"2 1 16998 29158 15914 XOR";
"2 1 15915 15914 15913 AND";
"2 1 15913 29158 29159 XOR";
"2 1 29222 29159 328 XOR";
"2 1 328 17000 29034 XOR";
"2 1 29286 29159 15912 XOR";
"2 1 16999 29159 15911 XOR";
"2 1 15912 15911 15910 AND";
"2 1 15910 29159 29160 XOR";
"2 1 29223 29160 327 XOR";
"2 1 327 17001 29035 XOR";
"2 1 29287 29160 15909 XOR";
"2 1 17000 29160 15908 XOR";
"2 1 15909 15908 15907 AND";
"2 1 15907 29160 29161 XOR";
"2 1 29224 29161 326 XOR";
"2 1 326 17002 29036 XOR";
"2 1 29288 29161 15906 XOR";
"2 1 17001 29161 15905 XOR";
"2 1 15906 15905 15904 AND";
"2 1 15904 29161 29162 XOR";
"2 1 29225 29162 325 XOR";
"2 1 325 17003 29037 XOR";
"2 1 29289 29162 15903 XOR";
"2 1 17002 29162 15902 XOR";
"2 1 15903 15902 15901 AND";
"2 1 15901 29162 29163 XOR";
"2 1 29226 29163 324 XOR";
"2 1 324 17004 29038 XOR";
"2 1 29290 29163 15900 XOR";
"2 1 17003 29163 15899 XOR";
"2 1 15900 15899 15898 AND";
"2 1 15898 29163 29164 XOR";
"2 1 29227 29164 323 XOR";
"2 1 323 17005 29039 XOR";
"2 1 29291 29164 15897 XOR";
"2 1 17004 29164 15896 XOR";
"2 1 15897 15896 15895 AND";
"2 1 15895 29164 29165 XOR";
"2 1 29228 29165 322 XOR";
"2 1 322 17006 29040 XOR";
"2 1 29292 29165 15894 XOR";
"2 1 17005 29165 15893 XOR";
"2 1 15894 15893 15892 AND";
"2 1 15892 29165 29166 XOR";
"2 1 29229 29166 321 XOR";
"2 1 321 17007 29041 XOR";
"2 1 29293 29166 15891 XOR";
"2 1 17006 29166 15890 XOR";
"2 1 15891 15890 15889 AND";
"2 1 15889 29166 29167 XOR";
"2 1 29230 29167 320 XOR";
"2 1 320 17008 29042 XOR";
"2 1 29294 29167 15888 XOR";
"2 1 17007 29167 15887 XOR";
"2 1 15888 15887 15886 AND";
"2 1 15886 29167 29168 XOR";
"2 1 29231 29168 319 XOR";
"2 1 319 17009 29043 XOR";
"2 1 29295 29168 15885 XOR";
"2 1 17008 29168 15884 XOR";
"2 1 15885 15884 15883 AND";
"2 1 15883 29168 29169 XOR";
"2 1 29232 29169 132 XOR";
"1 1 132 16690 INV";
"2 1 16879 16690 29044 XOR";
"2 1 381 16690 29045 XOR";
"2 1 380 16690 29046 XOR";
"2 1 379 16690 29047 XOR";
"2 1 378 16690 29048 XOR";
"2 1 377 16690 29049 XOR";
"2 1 376 16690 29050 XOR";
"2 1 375 16690 29051 XOR";
"2 1 374 16690 29052 XOR";
"2 1 373 16690 29053 XOR";
"2 1 372 16690 29054 XOR";
"2 1 371 16690 29055 XOR";
"2 1 370 16690 29056 XOR";
"2 1 369 16690 29057 XOR";
"2 1 368 16690 29058 XOR";
"2 1 367 16690 29059 XOR";
"2 1 366 16690 29060 XOR";
"2 1 365 16690 29061 XOR";
"2 1 364 16690 29062 XOR";
"2 1 363 16690 29063 XOR";
"2 1 362 16690 29064 XOR";
"2 1 361 16690 29065 XOR";
"2 1 360 16690 29066 XOR";
"2 1 359 16690 29067 XOR";
"2 1 358 16690 29068 XOR";
"2 1 357 16690 29069 XOR";
"2 1 356 16690 29070 XOR";
"2 1 355 16690 29071 XOR";
"2 1 354 16690 29072 XOR";
"2 1 353 16690 29073 XOR";
"2 1 352 16690 29074 XOR";
"2 1 351 16690 29075 XOR";
"2 1 350 16690 29076 XOR";
"2 1 349 16690 29077 XOR";
"2 1 348 16690 29078 XOR";
"2 1 347 16690 29079 XOR";
"2 1 346 16690 29080 XOR";
"2 1 345 16690 29081 XOR";
"2 1 344 16690 29082 XOR";
"2 1 343 16690 29083 XOR";
"2 1 342 16690 29084 XOR";
"2 1 341 16690 29085 XOR";
"2 1 340 16690 29086 XOR";
"2 1 339 16690 29087 XOR";
"2 1 338 16690 29088 XOR";
"2 1 337 16690 29089 XOR";
"2 1 336 16690 29090 XOR";
"2 1 335 16690 29091 XOR";
"2 1 334 16690 29092 XOR";
"2 1 333 16690 29093 XOR";
"2 1 332 16690 29094 XOR";
"2 1 331 16690 29095 XOR";
"2 1 330 16690 29096 XOR";
"2 1 329 16690 29097 XOR";
"2 1 328 16690 29098 XOR";
"2 1 327 16690 29099 XOR";
"2 1 326 16690 29100 XOR";
"2 1 325 16690 29101 XOR";
"2 1 324 16690 29102 XOR";
"2 1 323 16690 29103 XOR";
"2 1 322 16690 29104 XOR";
"2 1 321 16690 29105 XOR";
"2 1 320 16690 29106 XOR";
"2 1 29044 16946 28918 AND";
"2 1 28981 28918 443 XOR";
"2 1 443 16948 28793 XOR";
"2 1 29045 28918 15882 XOR";
"2 1 16947 28918 15881 XOR";
"2 1 15882 15881 15880 AND";
"2 1 15880 28918 28919 XOR";
"2 1 28982 28919 442 XOR";
"2 1 442 16949 28794 XOR";
"2 1 29046 28919 15879 XOR";
"2 1 16948 28919 15878 XOR";
"2 1 15879 15878 15877 AND";
"2 1 15877 28919 28920 XOR";
"2 1 28983 28920 441 XOR";
"2 1 441 16950 28795 XOR";
"2 1 29047 28920 15876 XOR";
"2 1 16949 28920 15875 XOR";
"2 1 15876 15875 15874 AND";
"2 1 15874 28920 28921 XOR";
"2 1 28984 28921 440 XOR";
"2 1 440 16951 28796 XOR";
"2 1 29048 28921 15873 XOR";
"2 1 16950 28921 15872 XOR";
"2 1 15873 15872 15871 AND";
"2 1 15871 28921 28922 XOR";
"2 1 28985 28922 439 XOR";
"2 1 439 16952 28797 XOR";
"2 1 29049 28922 15870 XOR";
"2 1 16951 28922 15869 XOR";
"2 1 15870 15869 15868 AND";
"2 1 15868 28922 28923 XOR";
"2 1 28986 28923 438 XOR";
"2 1 438 16953 28798 XOR";
"2 1 29050 28923 15867 XOR";
"2 1 16952 28923 15866 XOR";
"2 1 15867 15866 15865 AND";
"2 1 15865 28923 28924 XOR";
"2 1 28987 28924 437 XOR";
"2 1 437 16954 28799 XOR";
"2 1 29051 28924 15864 XOR";
"2 1 16953 28924 15863 XOR";
"2 1 15864 15863 15862 AND";
"2 1 15862 28924 28925 XOR";
"2 1 28988 28925 436 XOR";
"2 1 436 16955 28800 XOR";
"2 1 29052 28925 15861 XOR";
"2 1 16954 28925 15860 XOR";
"2 1 15861 15860 15859 AND";
"2 1 15859 28925 28926 XOR";
"2 1 28989 28926 435 XOR";
"2 1 435 16956 28801 XOR";
"2 1 29053 28926 15858 XOR";
"2 1 16955 28926 15857 XOR";
"2 1 15858 15857 15856 AND";
"2 1 15856 28926 28927 XOR";
"2 1 28990 28927 434 XOR";
"2 1 434 16957 28802 XOR";
"2 1 29054 28927 15855 XOR";
"2 1 16956 28927 15854 XOR";
"2 1 15855 15854 15853 AND";
"2 1 15853 28927 28928 XOR";
"2 1 28991 28928 433 XOR";
"2 1 433 16958 28803 XOR";
"2 1 29055 28928 15852 XOR";
"2 1 16957 28928 15851 XOR";
"2 1 15852 15851 15850 AND";
"2 1 15850 28928 28929 XOR";
"2 1 28992 28929 432 XOR";
"2 1 432 16959 28804 XOR";
"2 1 29056 28929 15849 XOR";
"2 1 16958 28929 15848 XOR";
"2 1 15849 15848 15847 AND";
"2 1 15847 28929 28930 XOR";
"2 1 28993 28930 431 XOR";
"2 1 431 16960 28805 XOR";
"2 1 29057 28930 15846 XOR";
"2 1 16959 28930 15845 XOR";
"2 1 15846 15845 15844 AND";
"2 1 15844 28930 28931 XOR";
"2 1 28994 28931 430 XOR";
"2 1 430 16961 28806 XOR";
"2 1 29058 28931 15843 XOR";
"2 1 16960 28931 15842 XOR";
"2 1 15843 15842 15841 AND";
"2 1 15841 28931 28932 XOR";
"2 1 28995 28932 429 XOR";
"2 1 429 16962 28807 XOR";
"2 1 29059 28932 15840 XOR";
"2 1 16961 28932 15839 XOR";
"2 1 15840 15839 15838 AND";
"2 1 15838 28932 28933 XOR";
"2 1 28996 28933 428 XOR";
"2 1 428 16963 28808 XOR";
"2 1 29060 28933 15837 XOR";
"2 1 16962 28933 15836 XOR";
"2 1 15837 15836 15835 AND";
"2 1 15835 28933 28934 XOR";
"2 1 28997 28934 427 XOR";
"2 1 427 16964 28809 XOR";
"2 1 29061 28934 15834 XOR";
"2 1 16963 28934 15833 XOR";
"2 1 15834 15833 15832 AND";
"2 1 15832 28934 28935 XOR";
"2 1 28998 28935 426 XOR";
"2 1 426 16965 28810 XOR";
"2 1 29062 28935 15831 XOR";
"2 1 16964 28935 15830 XOR";
"2 1 15831 15830 15829 AND";
"2 1 15829 28935 28936 XOR";
"2 1 28999 28936 425 XOR";
"2 1 425 16966 28811 XOR";
"2 1 29063 28936 15828 XOR";
"2 1 16965 28936 15827 XOR";
"2 1 15828 15827 15826 AND";
"2 1 15826 28936 28937 XOR";
"2 1 29000 28937 424 XOR";
"2 1 424 16967 28812 XOR";
"2 1 29064 28937 15825 XOR";
"2 1 16966 28937 15824 XOR";
"2 1 15825 15824 15823 AND";
"2 1 15823 28937 28938 XOR";
"2 1 29001 28938 423 XOR";
"2 1 423 16968 28813 XOR";
"2 1 29065 28938 15822 XOR";
"2 1 16967 28938 15821 XOR";
"2 1 15822 15821 15820 AND";
"2 1 15820 28938 28939 XOR";
"2 1 29002 28939 422 XOR";
"2 1 422 16969 28814 XOR";
"2 1 29066 28939 15819 XOR";
"2 1 16968 28939 15818 XOR";
"2 1 15819 15818 15817 AND";
"2 1 15817 28939 28940 XOR";
"2 1 29003 28940 421 XOR";
"2 1 421 16970 28815 XOR";
"2 1 29067 28940 15816 XOR";
"2 1 16969 28940 15815 XOR";
"2 1 15816 15815 15814 AND";
"2 1 15814 28940 28941 XOR";
"2 1 29004 28941 420 XOR";
"2 1 420 16971 28816 XOR";
"2 1 29068 28941 15813 XOR";
"2 1 16970 28941 15812 XOR";
"2 1 15813 15812 15811 AND";
"2 1 15811 28941 28942 XOR";
"2 1 29005 28942 419 XOR";
"2 1 419 16972 28817 XOR";
"2 1 29069 28942 15810 XOR";
"2 1 16971 28942 15809 XOR";
"2 1 15810 15809 15808 AND";
"2 1 15808 28942 28943 XOR";
"2 1 29006 28943 418 XOR";
"2 1 418 16973 28818 XOR";
"2 1 29070 28943 15807 XOR";
"2 1 16972 28943 15806 XOR";
"2 1 15807 15806 15805 AND";
"2 1 15805 28943 28944 XOR";
"2 1 29007 28944 417 XOR";
"2 1 417 16974 28819 XOR";
"2 1 29071 28944 15804 XOR";
"2 1 16973 28944 15803 XOR";
"2 1 15804 15803 15802 AND";
"2 1 15802 28944 28945 XOR";
"2 1 29008 28945 416 XOR";
"2 1 416 16975 28820 XOR";
"2 1 29072 28945 15801 XOR";
"2 1 16974 28945 15800 XOR";
"2 1 15801 15800 15799 AND";
"2 1 15799 28945 28946 XOR";
"2 1 29009 28946 415 XOR";
"2 1 415 16976 28821 XOR";
"2 1 29073 28946 15798 XOR";
"2 1 16975 28946 15797 XOR";
"2 1 15798 15797 15796 AND";
"2 1 15796 28946 28947 XOR";
"2 1 29010 28947 414 XOR";
"2 1 414 16977 28822 XOR";
"2 1 29074 28947 15795 XOR";
"2 1 16976 28947 15794 XOR";
"2 1 15795 15794 15793 AND";
"2 1 15793 28947 28948 XOR";
"2 1 29011 28948 413 XOR";
"2 1 413 16978 28823 XOR";
"2 1 29075 28948 15792 XOR";
"2 1 16977 28948 15791 XOR";
"2 1 15792 15791 15790 AND";
"2 1 15790 28948 28949 XOR";
"2 1 29012 28949 412 XOR";
"2 1 412 16979 28824 XOR";
"2 1 29076 28949 15789 XOR";
"2 1 16978 28949 15788 XOR";
"2 1 15789 15788 15787 AND";
"2 1 15787 28949 28950 XOR";
"2 1 29013 28950 411 XOR";
"2 1 411 16980 28825 XOR";
"2 1 29077 28950 15786 XOR";
"2 1 16979 28950 15785 XOR";
"2 1 15786 15785 15784 AND";
"2 1 15784 28950 28951 XOR";
"2 1 29014 28951 410 XOR";
"2 1 410 16981 28826 XOR";
"2 1 29078 28951 15783 XOR";
"2 1 16980 28951 15782 XOR";
"2 1 15783 15782 15781 AND";
"2 1 15781 28951 28952 XOR";
"2 1 29015 28952 409 XOR";
"2 1 409 16982 28827 XOR";
"2 1 29079 28952 15780 XOR";
"2 1 16981 28952 15779 XOR";
"2 1 15780 15779 15778 AND";
"2 1 15778 28952 28953 XOR";
"2 1 29016 28953 408 XOR";
"2 1 408 16983 28828 XOR";
"2 1 29080 28953 15777 XOR";
"2 1 16982 28953 15776 XOR";
"2 1 15777 15776 15775 AND";
"2 1 15775 28953 28954 XOR";
"2 1 29017 28954 407 XOR";
"2 1 407 16984 28829 XOR";
"2 1 29081 28954 15774 XOR";
"2 1 16983 28954 15773 XOR";
"2 1 15774 15773 15772 AND";
"2 1 15772 28954 28955 XOR";
"2 1 29018 28955 406 XOR";
"2 1 406 16985 28830 XOR";
"2 1 29082 28955 15771 XOR";
"2 1 16984 28955 15770 XOR";
"2 1 15771 15770 15769 AND";
"2 1 15769 28955 28956 XOR";
"2 1 29019 28956 405 XOR";
"2 1 405 16986 28831 XOR";
"2 1 29083 28956 15768 XOR";
"2 1 16985 28956 15767 XOR";
"2 1 15768 15767 15766 AND";
"2 1 15766 28956 28957 XOR";
"2 1 29020 28957 404 XOR";
"2 1 404 16987 28832 XOR";
"2 1 29084 28957 15765 XOR";
"2 1 16986 28957 15764 XOR";
"2 1 15765 15764 15763 AND";
"2 1 15763 28957 28958 XOR";
"2 1 29021 28958 403 XOR";
"2 1 403 16988 28833 XOR";
"2 1 29085 28958 15762 XOR";
"2 1 16987 28958 15761 XOR";
"2 1 15762 15761 15760 AND";
"2 1 15760 28958 28959 XOR";
"2 1 29022 28959 402 XOR";
"2 1 402 16989 28834 XOR";
"2 1 29086 28959 15759 XOR";
"2 1 16988 28959 15758 XOR";
"2 1 15759 15758 15757 AND";
"2 1 15757 28959 28960 XOR";
"2 1 29023 28960 401 XOR";
"2 1 401 16990 28835 XOR";
"2 1 29087 28960 15756 XOR";
"2 1 16989 28960 15755 XOR";
"2 1 15756 15755 15754 AND";
"2 1 15754 28960 28961 XOR";
"2 1 29024 28961 400 XOR";
"2 1 400 16991 28836 XOR";
"2 1 29088 28961 15753 XOR";
"2 1 16990 28961 15752 XOR";
"2 1 15753 15752 15751 AND";
"2 1 15751 28961 28962 XOR";
"2 1 29025 28962 399 XOR";
"2 1 399 16992 28837 XOR";
"2 1 29089 28962 15750 XOR";
"2 1 16991 28962 15749 XOR";
"2 1 15750 15749 15748 AND";
"2 1 15748 28962 28963 XOR";
"2 1 29026 28963 398 XOR";
"2 1 398 16993 28838 XOR";
"2 1 29090 28963 15747 XOR";
"2 1 16992 28963 15746 XOR";
"2 1 15747 15746 15745 AND";
"2 1 15745 28963 28964 XOR";
"2 1 29027 28964 397 XOR";
"2 1 397 16994 28839 XOR";
"2 1 29091 28964 15744 XOR";
"2 1 16993 28964 15743 XOR";
"2 1 15744 15743 15742 AND";
"2 1 15742 28964 28965 XOR";
"2 1 29028 28965 396 XOR";
"2 1 396 16995 28840 XOR";
"2 1 29092 28965 15741 XOR";
"2 1 16994 28965 15740 XOR";
"2 1 15741 15740 15739 AND";
"2 1 15739 28965 28966 XOR";
"2 1 29029 28966 395 XOR";
"2 1 395 16996 28841 XOR";
"2 1 29093 28966 15738 XOR";
"2 1 16995 28966 15737 XOR";
"2 1 15738 15737 15736 AND";
"2 1 15736 28966 28967 XOR";
"2 1 29030 28967 394 XOR";
"2 1 394 16997 28842 XOR";
"2 1 29094 28967 15735 XOR";
"2 1 16996 28967 15734 XOR";
"2 1 15735 15734 15733 AND";
"2 1 15733 28967 28968 XOR";
"2 1 29031 28968 393 XOR";
"2 1 393 16998 28843 XOR";
"2 1 29095 28968 15732 XOR";
"2 1 16997 28968 15731 XOR";
"2 1 15732 15731 15730 AND";
"2 1 15730 28968 28969 XOR";
"2 1 29032 28969 392 XOR";
"2 1 392 16999 28844 XOR";
"2 1 29096 28969 15729 XOR";
"2 1 16998 28969 15728 XOR";
"2 1 15729 15728 15727 AND";
"2 1 15727 28969 28970 XOR";
"2 1 29033 28970 391 XOR";
"2 1 391 17000 28845 XOR";
"2 1 29097 28970 15726 XOR";
"2 1 16999 28970 15725 XOR";
"2 1 15726 15725 15724 AND";
"2 1 15724 28970 28971 XOR";
"2 1 29034 28971 390 XOR";
"2 1 390 17001 28846 XOR";
"2 1 29098 28971 15723 XOR";
"2 1 17000 28971 15722 XOR";
"2 1 15723 15722 15721 AND";
"2 1 15721 28971 28972 XOR";
"2 1 29035 28972 389 XOR";
"2 1 389 17002 28847 XOR";
"2 1 29099 28972 15720 XOR";
"2 1 17001 28972 15719 XOR";
"2 1 15720 15719 15718 AND";
"2 1 15718 28972 28973 XOR";
"2 1 29036 28973 388 XOR";
"2 1 388 17003 28848 XOR";
"2 1 29100 28973 15717 XOR";
"2 1 17002 28973 15716 XOR";
"2 1 15717 15716 15715 AND";
"2 1 15715 28973 28974 XOR";
"2 1 29037 28974 387 XOR";
"2 1 387 17004 28849 XOR";
"2 1 29101 28974 15714 XOR";
"2 1 17003 28974 15713 XOR";
"2 1 15714 15713 15712 AND";
"2 1 15712 28974 28975 XOR";
"2 1 29038 28975 386 XOR";
"2 1 386 17005 28850 XOR";
"2 1 29102 28975 15711 XOR";
"2 1 17004 28975 15710 XOR";
"2 1 15711 15710 15709 AND";
"2 1 15709 28975 28976 XOR";
"2 1 29039 28976 385 XOR";
"2 1 385 17006 28851 XOR";
"2 1 29103 28976 15708 XOR";
"2 1 17005 28976 15707 XOR";
"2 1 15708 15707 15706 AND";
"2 1 15706 28976 28977 XOR";
"2 1 29040 28977 384 XOR";
"2 1 384 17007 28852 XOR";
"2 1 29104 28977 15705 XOR";
"2 1 17006 28977 15704 XOR";
"2 1 15705 15704 15703 AND";
"2 1 15703 28977 28978 XOR";
"2 1 29041 28978 383 XOR";
"2 1 383 17008 28853 XOR";
"2 1 29105 28978 15702 XOR";
"2 1 17007 28978 15701 XOR";
"2 1 15702 15701 15700 AND";
"2 1 15700 28978 28979 XOR";
"2 1 29042 28979 382 XOR";
"2 1 382 17009 28854 XOR";
"2 1 29106 28979 15699 XOR";
"2 1 17008 28979 15698 XOR";
"2 1 15699 15698 15697 AND";
"2 1 15697 28979 28980 XOR";
"2 1 29043 28980 133 XOR";
"2 1 16690 4535 17574 AND";
"1 1 133 16689 INV";
"2 1 16878 16689 28855 XOR";
"2 1 444 16689 28856 XOR";
"2 1 443 16689 28857 XOR";
"2 1 442 16689 28858 XOR";
"2 1 441 16689 28859 XOR";
"2 1 440 16689 28860 XOR";
"2 1 439 16689 28861 XOR";
"2 1 438 16689 28862 XOR";
"2 1 437 16689 28863 XOR";
"2 1 436 16689 28864 XOR";
"2 1 435 16689 28865 XOR";
"2 1 434 16689 28866 XOR";
"2 1 433 16689 28867 XOR";
"2 1 432 16689 28868 XOR";
"2 1 431 16689 28869 XOR";
"2 1 430 16689 28870 XOR";
"2 1 429 16689 28871 XOR";
"2 1 428 16689 28872 XOR";
"2 1 427 16689 28873 XOR";
"2 1 426 16689 28874 XOR";
"2 1 425 16689 28875 XOR";
"2 1 424 16689 28876 XOR";
"2 1 423 16689 28877 XOR";
"2 1 422 16689 28878 XOR";
"2 1 421 16689 28879 XOR";
"2 1 420 16689 28880 XOR";
"2 1 419 16689 28881 XOR";
"2 1 418 16689 28882 XOR";
"2 1 417 16689 28883 XOR";
"2 1 416 16689 28884 XOR";
"2 1 415 16689 28885 XOR";
"2 1 414 16689 28886 XOR";
"2 1 413 16689 28887 XOR";
"2 1 412 16689 28888 XOR";
"2 1 411 16689 28889 XOR";
"2 1 410 16689 28890 XOR";
"2 1 409 16689 28891 XOR";
"2 1 408 16689 28892 XOR";
"2 1 407 16689 28893 XOR";
"2 1 406 16689 28894 XOR";
"2 1 405 16689 28895 XOR";
"2 1 404 16689 28896 XOR";
"2 1 403 16689 28897 XOR";
"2 1 402 16689 28898 XOR";
"2 1 401 16689 28899 XOR";
"2 1 400 16689 28900 XOR";
"2 1 399 16689 28901 XOR";
"2 1 398 16689 28902 XOR";
"2 1 397 16689 28903 XOR";
"2 1 396 16689 28904 XOR";
"2 1 395 16689 28905 XOR";
"2 1 394 16689 28906 XOR";
"2 1 393 16689 28907 XOR";
"2 1 392 16689 28908 XOR";
"2 1 391 16689 28909 XOR";
"2 1 390 16689 28910 XOR";
"2 1 389 16689 28911 XOR";
"2 1 388 16689 28912 XOR";
"2 1 387 16689 28913 XOR";
"2 1 386 16689 28914 XOR";
"2 1 385 16689 28915 XOR";
"2 1 384 16689 28916 XOR";
"2 1 383 16689 28917 XOR";
"2 1 28855 16946 28729 AND";
"2 1 28792 28729 506 XOR";
"2 1 506 16948 28604 XOR";
"2 1 28856 28729 15696 XOR";
"2 1 16947 28729 15695 XOR";
"2 1 15696 15695 15694 AND";
"2 1 15694 28729 28730 XOR";
"2 1 28793 28730 505 XOR";
"2 1 505 16949 28605 XOR";
"2 1 28857 28730 15693 XOR";
"2 1 16948 28730 15692 XOR";
"2 1 15693 15692 15691 AND";
"2 1 15691 28730 28731 XOR";
"2 1 28794 28731 504 XOR";
"2 1 504 16950 28606 XOR";
"2 1 28858 28731 15690 XOR";
"2 1 16949 28731 15689 XOR";
"2 1 15690 15689 15688 AND";
"2 1 15688 28731 28732 XOR";
"2 1 28795 28732 503 XOR";
"2 1 503 16951 28607 XOR";
"2 1 28859 28732 15687 XOR";
"2 1 16950 28732 15686 XOR";
"2 1 15687 15686 15685 AND";
"2 1 15685 28732 28733 XOR";
"2 1 28796 28733 502 XOR";
"2 1 502 16952 28608 XOR";
"2 1 28860 28733 15684 XOR";
"2 1 16951 28733 15683 XOR";
"2 1 15684 15683 15682 AND";
"2 1 15682 28733 28734 XOR";
"2 1 28797 28734 501 XOR";
"2 1 501 16953 28609 XOR";
"2 1 28861 28734 15681 XOR";
"2 1 16952 28734 15680 XOR";
"2 1 15681 15680 15679 AND";
"2 1 15679 28734 28735 XOR";
"2 1 28798 28735 500 XOR";
"2 1 500 16954 28610 XOR";
"2 1 28862 28735 15678 XOR";
"2 1 16953 28735 15677 XOR";
"2 1 15678 15677 15676 AND";
"2 1 15676 28735 28736 XOR";
"2 1 28799 28736 499 XOR";
"2 1 499 16955 28611 XOR";
"2 1 28863 28736 15675 XOR";
"2 1 16954 28736 15674 XOR";
"2 1 15675 15674 15673 AND";
"2 1 15673 28736 28737 XOR";
"2 1 28800 28737 498 XOR";
"2 1 498 16956 28612 XOR";
"2 1 28864 28737 15672 XOR";
"2 1 16955 28737 15671 XOR";
"2 1 15672 15671 15670 AND";
"2 1 15670 28737 28738 XOR";
"2 1 28801 28738 497 XOR";
"2 1 497 16957 28613 XOR";
"2 1 28865 28738 15669 XOR";
"2 1 16956 28738 15668 XOR";
"2 1 15669 15668 15667 AND";
"2 1 15667 28738 28739 XOR";
"2 1 28802 28739 496 XOR";
"2 1 496 16958 28614 XOR";
"2 1 28866 28739 15666 XOR";
"2 1 16957 28739 15665 XOR";
"2 1 15666 15665 15664 AND";
"2 1 15664 28739 28740 XOR";
"2 1 28803 28740 495 XOR";
"2 1 495 16959 28615 XOR";
"2 1 28867 28740 15663 XOR";
"2 1 16958 28740 15662 XOR";
"2 1 15663 15662 15661 AND";
"2 1 15661 28740 28741 XOR";
"2 1 28804 28741 494 XOR";
"2 1 494 16960 28616 XOR";
"2 1 28868 28741 15660 XOR";
"2 1 16959 28741 15659 XOR";
"2 1 15660 15659 15658 AND";
"2 1 15658 28741 28742 XOR";
"2 1 28805 28742 493 XOR";
"2 1 493 16961 28617 XOR";
"2 1 28869 28742 15657 XOR";
"2 1 16960 28742 15656 XOR";
"2 1 15657 15656 15655 AND";
"2 1 15655 28742 28743 XOR";
"2 1 28806 28743 492 XOR";
"2 1 492 16962 28618 XOR";
"2 1 28870 28743 15654 XOR";
"2 1 16961 28743 15653 XOR";
"2 1 15654 15653 15652 AND";
"2 1 15652 28743 28744 XOR";
"2 1 28807 28744 491 XOR";
"2 1 491 16963 28619 XOR";
"2 1 28871 28744 15651 XOR";
"2 1 16962 28744 15650 XOR";
"2 1 15651 15650 15649 AND";
"2 1 15649 28744 28745 XOR";
"2 1 28808 28745 490 XOR";
"2 1 490 16964 28620 XOR";
"2 1 28872 28745 15648 XOR";
"2 1 16963 28745 15647 XOR";
"2 1 15648 15647 15646 AND";
"2 1 15646 28745 28746 XOR";
"2 1 28809 28746 489 XOR";
"2 1 489 16965 28621 XOR";
"2 1 28873 28746 15645 XOR";
"2 1 16964 28746 15644 XOR";
"2 1 15645 15644 15643 AND";
"2 1 15643 28746 28747 XOR";
"2 1 28810 28747 488 XOR";
"2 1 488 16966 28622 XOR";
"2 1 28874 28747 15642 XOR";
"2 1 16965 28747 15641 XOR";
"2 1 15642 15641 15640 AND";
"2 1 15640 28747 28748 XOR";
"2 1 28811 28748 487 XOR";
"2 1 487 16967 28623 XOR";
"2 1 28875 28748 15639 XOR";
"2 1 16966 28748 15638 XOR";
"2 1 15639 15638 15637 AND";
"2 1 15637 28748 28749 XOR";
"2 1 28812 28749 486 XOR";
"2 1 486 16968 28624 XOR";
"2 1 28876 28749 15636 XOR";
"2 1 16967 28749 15635 XOR";
"2 1 15636 15635 15634 AND";
"2 1 15634 28749 28750 XOR";
"2 1 28813 28750 485 XOR";
"2 1 485 16969 28625 XOR";
"2 1 28877 28750 15633 XOR";
"2 1 16968 28750 15632 XOR";
"2 1 15633 15632 15631 AND";
"2 1 15631 28750 28751 XOR";
"2 1 28814 28751 484 XOR";
"2 1 484 16970 28626 XOR";
"2 1 28878 28751 15630 XOR";
"2 1 16969 28751 15629 XOR";
"2 1 15630 15629 15628 AND";
"2 1 15628 28751 28752 XOR";
"2 1 28815 28752 483 XOR";
"2 1 483 16971 28627 XOR";
"2 1 28879 28752 15627 XOR";
"2 1 16970 28752 15626 XOR";
"2 1 15627 15626 15625 AND";
"2 1 15625 28752 28753 XOR";
"2 1 28816 28753 482 XOR";
"2 1 482 16972 28628 XOR";
"2 1 28880 28753 15624 XOR";
"2 1 16971 28753 15623 XOR";
"2 1 15624 15623 15622 AND";
"2 1 15622 28753 28754 XOR";
"2 1 28817 28754 481 XOR";
"2 1 481 16973 28629 XOR";
"2 1 28881 28754 15621 XOR";
"2 1 16972 28754 15620 XOR";
"2 1 15621 15620 15619 AND";
"2 1 15619 28754 28755 XOR";
"2 1 28818 28755 480 XOR";
"2 1 480 16974 28630 XOR";
"2 1 28882 28755 15618 XOR";
"2 1 16973 28755 15617 XOR";
"2 1 15618 15617 15616 AND";
"2 1 15616 28755 28756 XOR";
"2 1 28819 28756 479 XOR";
"2 1 479 16975 28631 XOR";
"2 1 28883 28756 15615 XOR";
"2 1 16974 28756 15614 XOR";
"2 1 15615 15614 15613 AND";
"2 1 15613 28756 28757 XOR";
"2 1 28820 28757 478 XOR";
"2 1 478 16976 28632 XOR";
"2 1 28884 28757 15612 XOR";
"2 1 16975 28757 15611 XOR";
"2 1 15612 15611 15610 AND";
"2 1 15610 28757 28758 XOR";
"2 1 28821 28758 477 XOR";
"2 1 477 16977 28633 XOR";
"2 1 28885 28758 15609 XOR";
"2 1 16976 28758 15608 XOR";
"2 1 15609 15608 15607 AND";
"2 1 15607 28758 28759 XOR";
"2 1 28822 28759 476 XOR";
"2 1 476 16978 28634 XOR";
"2 1 28886 28759 15606 XOR";
"2 1 16977 28759 15605 XOR";
"2 1 15606 15605 15604 AND";
"2 1 15604 28759 28760 XOR";
"2 1 28823 28760 475 XOR";
"2 1 475 16979 28635 XOR";
"2 1 28887 28760 15603 XOR";
"2 1 16978 28760 15602 XOR";
"2 1 15603 15602 15601 AND";
"2 1 15601 28760 28761 XOR";
"2 1 28824 28761 474 XOR";
"2 1 474 16980 28636 XOR";
"2 1 28888 28761 15600 XOR";
"2 1 16979 28761 15599 XOR";
"2 1 15600 15599 15598 AND";
"2 1 15598 28761 28762 XOR";
"2 1 28825 28762 473 XOR";
"2 1 473 16981 28637 XOR";
"2 1 28889 28762 15597 XOR";
"2 1 16980 28762 15596 XOR";
"2 1 15597 15596 15595 AND";
"2 1 15595 28762 28763 XOR";
"2 1 28826 28763 472 XOR";
"2 1 472 16982 28638 XOR";
"2 1 28890 28763 15594 XOR";
"2 1 16981 28763 15593 XOR";
"2 1 15594 15593 15592 AND";
"2 1 15592 28763 28764 XOR";
"2 1 28827 28764 471 XOR";
"2 1 471 16983 28639 XOR";
"2 1 28891 28764 15591 XOR";
"2 1 16982 28764 15590 XOR";
"2 1 15591 15590 15589 AND";
"2 1 15589 28764 28765 XOR";
"2 1 28828 28765 470 XOR";
"2 1 470 16984 28640 XOR";
"2 1 28892 28765 15588 XOR";
"2 1 16983 28765 15587 XOR";
"2 1 15588 15587 15586 AND";
"2 1 15586 28765 28766 XOR";
"2 1 28829 28766 469 XOR";
"2 1 469 16985 28641 XOR";
"2 1 28893 28766 15585 XOR";
"2 1 16984 28766 15584 XOR";
"2 1 15585 15584 15583 AND";
"2 1 15583 28766 28767 XOR";
"2 1 28830 28767 468 XOR";
"2 1 468 16986 28642 XOR";
"2 1 28894 28767 15582 XOR";
"2 1 16985 28767 15581 XOR";
"2 1 15582 15581 15580 AND";
"2 1 15580 28767 28768 XOR";
"2 1 28831 28768 467 XOR";
"2 1 467 16987 28643 XOR";
"2 1 28895 28768 15579 XOR";
"2 1 16986 28768 15578 XOR";
"2 1 15579 15578 15577 AND";
"2 1 15577 28768 28769 XOR";
"2 1 28832 28769 466 XOR";
"2 1 466 16988 28644 XOR";
"2 1 28896 28769 15576 XOR";
"2 1 16987 28769 15575 XOR";
"2 1 15576 15575 15574 AND";
"2 1 15574 28769 28770 XOR";
"2 1 28833 28770 465 XOR";
"2 1 465 16989 28645 XOR";
"2 1 28897 28770 15573 XOR";
"2 1 16988 28770 15572 XOR";
"2 1 15573 15572 15571 AND";
"2 1 15571 28770 28771 XOR";
"2 1 28834 28771 464 XOR";
"2 1 464 16990 28646 XOR";
"2 1 28898 28771 15570 XOR";
"2 1 16989 28771 15569 XOR";
"2 1 15570 15569 15568 AND";
"2 1 15568 28771 28772 XOR";
"2 1 28835 28772 463 XOR";
"2 1 463 16991 28647 XOR";
"2 1 28899 28772 15567 XOR";
"2 1 16990 28772 15566 XOR";
"2 1 15567 15566 15565 AND";
"2 1 15565 28772 28773 XOR";
"2 1 28836 28773 462 XOR";
"2 1 462 16992 28648 XOR";
"2 1 28900 28773 15564 XOR";
"2 1 16991 28773 15563 XOR";
"2 1 15564 15563 15562 AND";
"2 1 15562 28773 28774 XOR";
"2 1 28837 28774 461 XOR";
"2 1 461 16993 28649 XOR";
"2 1 28901 28774 15561 XOR";
"2 1 16992 28774 15560 XOR";
"2 1 15561 15560 15559 AND";
"2 1 15559 28774 28775 XOR";
"2 1 28838 28775 460 XOR";
"2 1 460 16994 28650 XOR";
"2 1 28902 28775 15558 XOR";
"2 1 16993 28775 15557 XOR";
"2 1 15558 15557 15556 AND";
"2 1 15556 28775 28776 XOR";
"2 1 28839 28776 459 XOR";
"2 1 459 16995 28651 XOR";
"2 1 28903 28776 15555 XOR";
"2 1 16994 28776 15554 XOR";
"2 1 15555 15554 15553 AND";
"2 1 15553 28776 28777 XOR";
"2 1 28840 28777 458 XOR";
"2 1 458 16996 28652 XOR";
"2 1 28904 28777 15552 XOR";
"2 1 16995 28777 15551 XOR";
"2 1 15552 15551 15550 AND";
"2 1 15550 28777 28778 XOR";
"2 1 28841 28778 457 XOR";
"2 1 457 16997 28653 XOR";
"2 1 28905 28778 15549 XOR";
"2 1 16996 28778 15548 XOR";
"2 1 15549 15548 15547 AND";
"2 1 15547 28778 28779 XOR";
"2 1 28842 28779 456 XOR";
"2 1 456 16998 28654 XOR";
"2 1 28906 28779 15546 XOR";
"2 1 16997 28779 15545 XOR";
"2 1 15546 15545 15544 AND";
"2 1 15544 28779 28780 XOR";
"2 1 28843 28780 455 XOR";
"2 1 455 16999 28655 XOR";
"2 1 28907 28780 15543 XOR";
"2 1 16998 28780 15542 XOR";
"2 1 15543 15542 15541 AND";
"2 1 15541 28780 28781 XOR";
"2 1 28844 28781 454 XOR";
"2 1 454 17000 28656 XOR";
"2 1 28908 28781 15540 XOR";
"2 1 16999 28781 15539 XOR";
"2 1 15540 15539 15538 AND";
"2 1 15538 28781 28782 XOR";
"2 1 28845 28782 453 XOR";
"2 1 453 17001 28657 XOR";
"2 1 28909 28782 15537 XOR";
"2 1 17000 28782 15536 XOR";
"2 1 15537 15536 15535 AND";
"2 1 15535 28782 28783 XOR";
"2 1 28846 28783 452 XOR";
"2 1 452 17002 28658 XOR";
"2 1 28910 28783 15534 XOR";
"2 1 17001 28783 15533 XOR";
"2 1 15534 15533 15532 AND";
"2 1 15532 28783 28784 XOR";
"2 1 28847 28784 451 XOR";
"2 1 451 17003 28659 XOR";
"2 1 28911 28784 15531 XOR";
"2 1 17002 28784 15530 XOR";
"2 1 15531 15530 15529 AND";
"2 1 15529 28784 28785 XOR";
"2 1 28848 28785 450 XOR";
"2 1 450 17004 28660 XOR";
"2 1 28912 28785 15528 XOR";
"2 1 17003 28785 15527 XOR";
"2 1 15528 15527 15526 AND";
"2 1 15526 28785 28786 XOR";
"2 1 28849 28786 449 XOR";
"2 1 449 17005 28661 XOR";
"2 1 28913 28786 15525 XOR";
"2 1 17004 28786 15524 XOR";
"2 1 15525 15524 15523 AND";
"2 1 15523 28786 28787 XOR";
"2 1 28850 28787 448 XOR";
"2 1 448 17006 28662 XOR";
"2 1 28914 28787 15522 XOR";
"2 1 17005 28787 15521 XOR";
"2 1 15522 15521 15520 AND";
"2 1 15520 28787 28788 XOR";
"2 1 28851 28788 447 XOR";
"2 1 447 17007 28663 XOR";
"2 1 28915 28788 15519 XOR";
"2 1 17006 28788 15518 XOR";
"2 1 15519 15518 15517 AND";
"2 1 15517 28788 28789 XOR";
"2 1 28852 28789 446 XOR";
"2 1 446 17008 28664 XOR";
"2 1 28916 28789 15516 XOR";
"2 1 17007 28789 15515 XOR";
"2 1 15516 15515 15514 AND";
"2 1 15514 28789 28790 XOR";
"2 1 28853 28790 445 XOR";
"2 1 445 17009 28665 XOR";
"2 1 28917 28790 15513 XOR";
"2 1 17008 28790 15512 XOR";
"2 1 15513 15512 15511 AND";
"2 1 15511 28790 28791 XOR";
"2 1 28854 28791 134 XOR";
"1 1 134 16688 INV";
"2 1 16877 16688 28666 XOR";
"2 1 507 16688 28667 XOR";
"2 1 506 16688 28668 XOR";
"2 1 505 16688 28669 XOR";
"2 1 504 16688 28670 XOR";
"2 1 503 16688 28671 XOR";
"2 1 502 16688 28672 XOR";
"2 1 501 16688 28673 XOR";
"2 1 500 16688 28674 XOR";
"2 1 499 16688 28675 XOR";
"2 1 498 16688 28676 XOR";
"2 1 497 16688 28677 XOR";
"2 1 496 16688 28678 XOR";
"2 1 495 16688 28679 XOR";
"2 1 494 16688 28680 XOR";
"2 1 493 16688 28681 XOR";
"2 1 492 16688 28682 XOR";
"2 1 491 16688 28683 XOR";
"2 1 490 16688 28684 XOR";
"2 1 489 16688 28685 XOR";
"2 1 488 16688 28686 XOR";
"2 1 487 16688 28687 XOR";
"2 1 486 16688 28688 XOR";
"2 1 485 16688 28689 XOR";
"2 1 484 16688 28690 XOR";
"2 1 483 16688 28691 XOR";
"2 1 482 16688 28692 XOR";
"2 1 481 16688 28693 XOR";
"2 1 480 16688 28694 XOR";
"2 1 479 16688 28695 XOR";
"2 1 478 16688 28696 XOR";
"2 1 477 16688 28697 XOR";
"2 1 476 16688 28698 XOR";
"2 1 475 16688 28699 XOR";
"2 1 474 16688 28700 XOR";
"2 1 473 16688 28701 XOR";
"2 1 472 16688 28702 XOR";
"2 1 471 16688 28703 XOR";
"2 1 470 16688 28704 XOR";
"2 1 469 16688 28705 XOR";
"2 1 468 16688 28706 XOR";
"2 1 467 16688 28707 XOR";
"2 1 466 16688 28708 XOR";
"2 1 465 16688 28709 XOR";
"2 1 464 16688 28710 XOR";
"2 1 463 16688 28711 XOR";
"2 1 462 16688 28712 XOR";
"2 1 461 16688 28713 XOR";
"2 1 460 16688 28714 XOR";
"2 1 459 16688 28715 XOR";
"2 1 458 16688 28716 XOR";
"2 1 457 16688 28717 XOR";
"2 1 456 16688 28718 XOR";
"2 1 455 16688 28719 XOR";
"2 1 454 16688 28720 XOR";
"2 1 453 16688 28721 XOR";
"2 1 452 16688 28722 XOR";
"2 1 451 16688 28723 XOR";
"2 1 450 16688 28724 XOR";
"2 1 449 16688 28725 XOR";
"2 1 448 16688 28726 XOR";
"2 1 447 16688 28727 XOR";
"2 1 446 16688 28728 XOR";
"2 1 28666 16946 28540 AND";
"2 1 28603 28540 569 XOR";
"2 1 569 16948 28415 XOR";
"2 1 28667 28540 15510 XOR";
"2 1 16947 28540 15509 XOR";
"2 1 15510 15509 15508 AND";
"2 1 15508 28540 28541 XOR";
"2 1 28604 28541 568 XOR";
"2 1 568 16949 28416 XOR";
"2 1 28668 28541 15507 XOR";
"2 1 16948 28541 15506 XOR";
"2 1 15507 15506 15505 AND";
"2 1 15505 28541 28542 XOR";
"2 1 28605 28542 567 XOR";
"2 1 567 16950 28417 XOR";
"2 1 28669 28542 15504 XOR";
"2 1 16949 28542 15503 XOR";
"2 1 15504 15503 15502 AND";
"2 1 15502 28542 28543 XOR";
"2 1 28606 28543 566 XOR";
"2 1 566 16951 28418 XOR";
"2 1 28670 28543 15501 XOR";
"2 1 16950 28543 15500 XOR";
"2 1 15501 15500 15499 AND";
"2 1 15499 28543 28544 XOR";
"2 1 28607 28544 565 XOR";
"2 1 565 16952 28419 XOR";
"2 1 28671 28544 15498 XOR";
"2 1 16951 28544 15497 XOR";
"2 1 15498 15497 15496 AND";
"2 1 15496 28544 28545 XOR";
"2 1 28608 28545 564 XOR";
"2 1 564 16953 28420 XOR";
"2 1 28672 28545 15495 XOR";
"2 1 16952 28545 15494 XOR";
"2 1 15495 15494 15493 AND";
"2 1 15493 28545 28546 XOR";
"2 1 28609 28546 563 XOR";
"2 1 563 16954 28421 XOR";
"2 1 28673 28546 15492 XOR";
"2 1 16953 28546 15491 XOR";
"2 1 15492 15491 15490 AND";
"2 1 15490 28546 28547 XOR";
"2 1 28610 28547 562 XOR";
"2 1 562 16955 28422 XOR";
"2 1 28674 28547 15489 XOR";
"2 1 16954 28547 15488 XOR";
"2 1 15489 15488 15487 AND";
"2 1 15487 28547 28548 XOR";
"2 1 28611 28548 561 XOR";
"2 1 561 16956 28423 XOR";
"2 1 28675 28548 15486 XOR";
"2 1 16955 28548 15485 XOR";
"2 1 15486 15485 15484 AND";
"2 1 15484 28548 28549 XOR";
"2 1 28612 28549 560 XOR";
"2 1 560 16957 28424 XOR";
"2 1 28676 28549 15483 XOR";
"2 1 16956 28549 15482 XOR";
"2 1 15483 15482 15481 AND";
"2 1 15481 28549 28550 XOR";
"2 1 28613 28550 559 XOR";
"2 1 559 16958 28425 XOR";
"2 1 28677 28550 15480 XOR";
"2 1 16957 28550 15479 XOR";
"2 1 15480 15479 15478 AND";
"2 1 15478 28550 28551 XOR";
"2 1 28614 28551 558 XOR";
"2 1 558 16959 28426 XOR";
"2 1 28678 28551 15477 XOR";
"2 1 16958 28551 15476 XOR";
"2 1 15477 15476 15475 AND";
"2 1 15475 28551 28552 XOR";
"2 1 28615 28552 557 XOR";
"2 1 557 16960 28427 XOR";
"2 1 28679 28552 15474 XOR";
"2 1 16959 28552 15473 XOR";
"2 1 15474 15473 15472 AND";
"2 1 15472 28552 28553 XOR";
"2 1 28616 28553 556 XOR";
"2 1 556 16961 28428 XOR";
"2 1 28680 28553 15471 XOR";
"2 1 16960 28553 15470 XOR";
"2 1 15471 15470 15469 AND";
"2 1 15469 28553 28554 XOR";
"2 1 28617 28554 555 XOR";
"2 1 555 16962 28429 XOR";
"2 1 28681 28554 15468 XOR";
"2 1 16961 28554 15467 XOR";
"2 1 15468 15467 15466 AND";
"2 1 15466 28554 28555 XOR";
"2 1 28618 28555 554 XOR";
"2 1 554 16963 28430 XOR";
"2 1 28682 28555 15465 XOR";
"2 1 16962 28555 15464 XOR";
"2 1 15465 15464 15463 AND";
"2 1 15463 28555 28556 XOR";
"2 1 28619 28556 553 XOR";
"2 1 553 16964 28431 XOR";
"2 1 28683 28556 15462 XOR";
"2 1 16963 28556 15461 XOR";
"2 1 15462 15461 15460 AND";
"2 1 15460 28556 28557 XOR";
"2 1 28620 28557 552 XOR";
"2 1 552 16965 28432 XOR";
"2 1 28684 28557 15459 XOR";
"2 1 16964 28557 15458 XOR";
"2 1 15459 15458 15457 AND";
"2 1 15457 28557 28558 XOR";
"2 1 28621 28558 551 XOR";
"2 1 551 16966 28433 XOR";
"2 1 28685 28558 15456 XOR";
"2 1 16965 28558 15455 XOR";
"2 1 15456 15455 15454 AND";
"2 1 15454 28558 28559 XOR";
"2 1 28622 28559 550 XOR";
"2 1 550 16967 28434 XOR";
"2 1 28686 28559 15453 XOR";
"2 1 16966 28559 15452 XOR";
"2 1 15453 15452 15451 AND";
"2 1 15451 28559 28560 XOR";
"2 1 28623 28560 549 XOR";
"2 1 549 16968 28435 XOR";
"2 1 28687 28560 15450 XOR";
"2 1 16967 28560 15449 XOR";
"2 1 15450 15449 15448 AND";
"2 1 15448 28560 28561 XOR";
"2 1 28624 28561 548 XOR";
"2 1 548 16969 28436 XOR";
"2 1 28688 28561 15447 XOR";
"2 1 16968 28561 15446 XOR";
"2 1 15447 15446 15445 AND";
"2 1 15445 28561 28562 XOR";
"2 1 28625 28562 547 XOR";
"2 1 547 16970 28437 XOR";
"2 1 28689 28562 15444 XOR";
"2 1 16969 28562 15443 XOR";
"2 1 15444 15443 15442 AND";
"2 1 15442 28562 28563 XOR";
"2 1 28626 28563 546 XOR";
"2 1 546 16971 28438 XOR";
"2 1 28690 28563 15441 XOR";
"2 1 16970 28563 15440 XOR";
"2 1 15441 15440 15439 AND";
"2 1 15439 28563 28564 XOR";
"2 1 28627 28564 545 XOR";
"2 1 545 16972 28439 XOR";
"2 1 28691 28564 15438 XOR";
"2 1 16971 28564 15437 XOR";
"2 1 15438 15437 15436 AND";
"2 1 15436 28564 28565 XOR";
"2 1 28628 28565 544 XOR";
"2 1 544 16973 28440 XOR";
"2 1 28692 28565 15435 XOR";
"2 1 16972 28565 15434 XOR";
"2 1 15435 15434 15433 AND";
"2 1 15433 28565 28566 XOR";
"2 1 28629 28566 543 XOR";
"2 1 543 16974 28441 XOR";
"2 1 28693 28566 15432 XOR";
"2 1 16973 28566 15431 XOR";
"2 1 15432 15431 15430 AND";
"2 1 15430 28566 28567 XOR";
"2 1 28630 28567 542 XOR";
"2 1 542 16975 28442 XOR";
"2 1 28694 28567 15429 XOR";
"2 1 16974 28567 15428 XOR";
"2 1 15429 15428 15427 AND";
"2 1 15427 28567 28568 XOR";
"2 1 28631 28568 541 XOR";
"2 1 541 16976 28443 XOR";
"2 1 28695 28568 15426 XOR";
"2 1 16975 28568 15425 XOR";
"2 1 15426 15425 15424 AND";
"2 1 15424 28568 28569 XOR";
"2 1 28632 28569 540 XOR";
"2 1 540 16977 28444 XOR";
"2 1 28696 28569 15423 XOR";
"2 1 16976 28569 15422 XOR";
"2 1 15423 15422 15421 AND";
"2 1 15421 28569 28570 XOR";
"2 1 28633 28570 539 XOR";
"2 1 539 16978 28445 XOR";
"2 1 28697 28570 15420 XOR";
"2 1 16977 28570 15419 XOR";
"2 1 15420 15419 15418 AND";
"2 1 15418 28570 28571 XOR";
"2 1 28634 28571 538 XOR";
"2 1 538 16979 28446 XOR";
"2 1 28698 28571 15417 XOR";
"2 1 16978 28571 15416 XOR";
"2 1 15417 15416 15415 AND";
"2 1 15415 28571 28572 XOR";
"2 1 28635 28572 537 XOR";
"2 1 537 16980 28447 XOR";
"2 1 28699 28572 15414 XOR";
"2 1 16979 28572 15413 XOR";
"2 1 15414 15413 15412 AND";
"2 1 15412 28572 28573 XOR";
"2 1 28636 28573 536 XOR";
"2 1 536 16981 28448 XOR";
"2 1 28700 28573 15411 XOR";
"2 1 16980 28573 15410 XOR";
"2 1 15411 15410 15409 AND";
"2 1 15409 28573 28574 XOR";
"2 1 28637 28574 535 XOR";
"2 1 535 16982 28449 XOR";
"2 1 28701 28574 15408 XOR";
"2 1 16981 28574 15407 XOR";
"2 1 15408 15407 15406 AND";
"2 1 15406 28574 28575 XOR";
"2 1 28638 28575 534 XOR";
"2 1 534 16983 28450 XOR";
"2 1 28702 28575 15405 XOR";
"2 1 16982 28575 15404 XOR";
"2 1 15405 15404 15403 AND";
"2 1 15403 28575 28576 XOR";
"2 1 28639 28576 533 XOR";
"2 1 533 16984 28451 XOR";
"2 1 28703 28576 15402 XOR";
"2 1 16983 28576 15401 XOR";
"2 1 15402 15401 15400 AND";
"2 1 15400 28576 28577 XOR";
"2 1 28640 28577 532 XOR";
"2 1 532 16985 28452 XOR";
"2 1 28704 28577 15399 XOR";
"2 1 16984 28577 15398 XOR";
"2 1 15399 15398 15397 AND";
"2 1 15397 28577 28578 XOR";
"2 1 28641 28578 531 XOR";
"2 1 531 16986 28453 XOR";
"2 1 28705 28578 15396 XOR";
"2 1 16985 28578 15395 XOR";
"2 1 15396 15395 15394 AND";
"2 1 15394 28578 28579 XOR";
"2 1 28642 28579 530 XOR";
"2 1 530 16987 28454 XOR";
"2 1 28706 28579 15393 XOR";
"2 1 16986 28579 15392 XOR";
"2 1 15393 15392 15391 AND";
"2 1 15391 28579 28580 XOR";
"2 1 28643 28580 529 XOR";
"2 1 529 16988 28455 XOR";
"2 1 28707 28580 15390 XOR";
"2 1 16987 28580 15389 XOR";
"2 1 15390 15389 15388 AND";
"2 1 15388 28580 28581 XOR";
"2 1 28644 28581 528 XOR";
"2 1 528 16989 28456 XOR";
"2 1 28708 28581 15387 XOR";
"2 1 16988 28581 15386 XOR";
"2 1 15387 15386 15385 AND";
"2 1 15385 28581 28582 XOR";
"2 1 28645 28582 527 XOR";
"2 1 527 16990 28457 XOR";
"2 1 28709 28582 15384 XOR";
"2 1 16989 28582 15383 XOR";
"2 1 15384 15383 15382 AND";
"2 1 15382 28582 28583 XOR";
"2 1 28646 28583 526 XOR";
"2 1 526 16991 28458 XOR";
"2 1 28710 28583 15381 XOR";
"2 1 16990 28583 15380 XOR";
"2 1 15381 15380 15379 AND";
"2 1 15379 28583 28584 XOR";
"2 1 28647 28584 525 XOR";
"2 1 525 16992 28459 XOR";
"2 1 28711 28584 15378 XOR";
"2 1 16991 28584 15377 XOR";
"2 1 15378 15377 15376 AND";
"2 1 15376 28584 28585 XOR";
"2 1 28648 28585 524 XOR";
"2 1 524 16993 28460 XOR";
"2 1 28712 28585 15375 XOR";
"2 1 16992 28585 15374 XOR";
"2 1 15375 15374 15373 AND";
"2 1 15373 28585 28586 XOR";
"2 1 28649 28586 523 XOR";
"2 1 523 16994 28461 XOR";
"2 1 28713 28586 15372 XOR";
"2 1 16993 28586 15371 XOR";
"2 1 15372 15371 15370 AND";
"2 1 15370 28586 28587 XOR";
"2 1 28650 28587 522 XOR";
"2 1 522 16995 28462 XOR";
"2 1 28714 28587 15369 XOR";
"2 1 16994 28587 15368 XOR";
"2 1 15369 15368 15367 AND";
"2 1 15367 28587 28588 XOR";
"2 1 28651 28588 521 XOR";
"2 1 521 16996 28463 XOR";
"2 1 28715 28588 15366 XOR";
"2 1 16995 28588 15365 XOR";
"2 1 15366 15365 15364 AND";
"2 1 15364 28588 28589 XOR";
"2 1 28652 28589 520 XOR";
"2 1 520 16997 28464 XOR";
"2 1 28716 28589 15363 XOR";
"2 1 16996 28589 15362 XOR";
"2 1 15363 15362 15361 AND";
"2 1 15361 28589 28590 XOR";
"2 1 28653 28590 519 XOR";
"2 1 519 16998 28465 XOR";
"2 1 28717 28590 15360 XOR";
"2 1 16997 28590 15359 XOR";
"2 1 15360 15359 15358 AND";
"2 1 15358 28590 28591 XOR";
"2 1 28654 28591 518 XOR";
"2 1 518 16999 28466 XOR";
"2 1 28718 28591 15357 XOR";
"2 1 16998 28591 15356 XOR";
"2 1 15357 15356 15355 AND";
"2 1 15355 28591 28592 XOR";
"2 1 28655 28592 517 XOR";
"2 1 517 17000 28467 XOR";
"2 1 28719 28592 15354 XOR";
"2 1 16999 28592 15353 XOR";
"2 1 15354 15353 15352 AND";
"2 1 15352 28592 28593 XOR";
"2 1 28656 28593 516 XOR";
"2 1 516 17001 28468 XOR";
"2 1 28720 28593 15351 XOR";
"2 1 17000 28593 15350 XOR";
"2 1 15351 15350 15349 AND";
"2 1 15349 28593 28594 XOR";
"2 1 28657 28594 515 XOR";
"2 1 515 17002 28469 XOR";
"2 1 28721 28594 15348 XOR";
"2 1 17001 28594 15347 XOR";
"2 1 15348 15347 15346 AND";
"2 1 15346 28594 28595 XOR";
"2 1 28658 28595 514 XOR";
"2 1 514 17003 28470 XOR";
"2 1 28722 28595 15345 XOR";
"2 1 17002 28595 15344 XOR";
"2 1 15345 15344 15343 AND";
"2 1 15343 28595 28596 XOR";
"2 1 28659 28596 513 XOR";
"2 1 513 17004 28471 XOR";
"2 1 28723 28596 15342 XOR";
"2 1 17003 28596 15341 XOR";
"2 1 15342 15341 15340 AND";
"2 1 15340 28596 28597 XOR";
"2 1 28660 28597 512 XOR";
"2 1 512 17005 28472 XOR";
"2 1 28724 28597 15339 XOR";
"2 1 17004 28597 15338 XOR";
"2 1 15339 15338 15337 AND";
"2 1 15337 28597 28598 XOR";
"2 1 28661 28598 511 XOR";
"2 1 511 17006 28473 XOR";
"2 1 28725 28598 15336 XOR";
"2 1 17005 28598 15335 XOR";
"2 1 15336 15335 15334 AND";
"2 1 15334 28598 28599 XOR";
"2 1 28662 28599 510 XOR";
"2 1 510 17007 28474 XOR";
"2 1 28726 28599 15333 XOR";
"2 1 17006 28599 15332 XOR";
"2 1 15333 15332 15331 AND";
"2 1 15331 28599 28600 XOR";
"2 1 28663 28600 509 XOR";
"2 1 509 17008 28475 XOR";
"2 1 28727 28600 15330 XOR";
"2 1 17007 28600 15329 XOR";
"2 1 15330 15329 15328 AND";
"2 1 15328 28600 28601 XOR";
"2 1 28664 28601 508 XOR";
"2 1 508 17009 28476 XOR";
"2 1 28728 28601 15327 XOR";
"2 1 17008 28601 15326 XOR";
"2 1 15327 15326 15325 AND";
"2 1 15325 28601 28602 XOR";
"2 1 28665 28602 135 XOR";
"2 1 16688 4535 17572 AND";
"1 1 135 16687 INV";
"2 1 16876 16687 28477 XOR";
"2 1 570 16687 28478 XOR";
"2 1 569 16687 28479 XOR";
"2 1 568 16687 28480 XOR";
"2 1 567 16687 28481 XOR";
"2 1 566 16687 28482 XOR";
"2 1 565 16687 28483 XOR";
"2 1 564 16687 28484 XOR";
"2 1 563 16687 28485 XOR";
"2 1 562 16687 28486 XOR";
"2 1 561 16687 28487 XOR";
"2 1 560 16687 28488 XOR";
"2 1 559 16687 28489 XOR";
"2 1 558 16687 28490 XOR";
"2 1 557 16687 28491 XOR";
"2 1 556 16687 28492 XOR";
"2 1 555 16687 28493 XOR";
"2 1 554 16687 28494 XOR";
"2 1 553 16687 28495 XOR";
"2 1 552 16687 28496 XOR";
"2 1 551 16687 28497 XOR";
"2 1 550 16687 28498 XOR";
"2 1 549 16687 28499 XOR";
"2 1 548 16687 28500 XOR";
"2 1 547 16687 28501 XOR";
"2 1 546 16687 28502 XOR";
"2 1 545 16687 28503 XOR";
"2 1 544 16687 28504 XOR";
"2 1 543 16687 28505 XOR";
"2 1 542 16687 28506 XOR";
"2 1 541 16687 28507 XOR";
"2 1 540 16687 28508 XOR";
"2 1 539 16687 28509 XOR";
"2 1 538 16687 28510 XOR";
"2 1 537 16687 28511 XOR";
"2 1 536 16687 28512 XOR";
"2 1 535 16687 28513 XOR";
"2 1 534 16687 28514 XOR";
"2 1 533 16687 28515 XOR";
"2 1 532 16687 28516 XOR";
"2 1 531 16687 28517 XOR";
"2 1 530 16687 28518 XOR";
"2 1 529 16687 28519 XOR";
"2 1 528 16687 28520 XOR";
"2 1 527 16687 28521 XOR";
"2 1 526 16687 28522 XOR";
"2 1 525 16687 28523 XOR";
"2 1 524 16687 28524 XOR";
"2 1 523 16687 28525 XOR";
"2 1 522 16687 28526 XOR";
"2 1 521 16687 28527 XOR";
"2 1 520 16687 28528 XOR";
"2 1 519 16687 28529 XOR";
"2 1 518 16687 28530 XOR";
"2 1 517 16687 28531 XOR";
"2 1 516 16687 28532 XOR";
"2 1 515 16687 28533 XOR";
"2 1 514 16687 28534 XOR";
"2 1 513 16687 28535 XOR";
"2 1 512 16687 28536 XOR";
"2 1 511 16687 28537 XOR";
"2 1 510 16687 28538 XOR";
"2 1 509 16687 28539 XOR";
"2 1 28477 16946 28351 AND";
"2 1 28414 28351 632 XOR";
"2 1 632 16948 28226 XOR";
"2 1 28478 28351 15324 XOR";
"2 1 16947 28351 15323 XOR";
"2 1 15324 15323 15322 AND";
"2 1 15322 28351 28352 XOR";
"2 1 28415 28352 631 XOR";
"2 1 631 16949 28227 XOR";
"2 1 28479 28352 15321 XOR";
"2 1 16948 28352 15320 XOR";
"2 1 15321 15320 15319 AND";
"2 1 15319 28352 28353 XOR";
"2 1 28416 28353 630 XOR";
"2 1 630 16950 28228 XOR";
"2 1 28480 28353 15318 XOR";
"2 1 16949 28353 15317 XOR";
"2 1 15318 15317 15316 AND";
"2 1 15316 28353 28354 XOR";
"2 1 28417 28354 629 XOR";
"2 1 629 16951 28229 XOR";
"2 1 28481 28354 15315 XOR";
"2 1 16950 28354 15314 XOR";
"2 1 15315 15314 15313 AND";
"2 1 15313 28354 28355 XOR";
"2 1 28418 28355 628 XOR";
"2 1 628 16952 28230 XOR";
"2 1 28482 28355 15312 XOR";
"2 1 16951 28355 15311 XOR";
"2 1 15312 15311 15310 AND";
"2 1 15310 28355 28356 XOR";
"2 1 28419 28356 627 XOR";
"2 1 627 16953 28231 XOR";
"2 1 28483 28356 15309 XOR";
"2 1 16952 28356 15308 XOR";
"2 1 15309 15308 15307 AND";
"2 1 15307 28356 28357 XOR";
"2 1 28420 28357 626 XOR";
"2 1 626 16954 28232 XOR";
"2 1 28484 28357 15306 XOR";
"2 1 16953 28357 15305 XOR";
"2 1 15306 15305 15304 AND";
"2 1 15304 28357 28358 XOR";
"2 1 28421 28358 625 XOR";
"2 1 625 16955 28233 XOR";
"2 1 28485 28358 15303 XOR";
"2 1 16954 28358 15302 XOR";
"2 1 15303 15302 15301 AND";
"2 1 15301 28358 28359 XOR";
"2 1 28422 28359 624 XOR";
"2 1 624 16956 28234 XOR";
"2 1 28486 28359 15300 XOR";
"2 1 16955 28359 15299 XOR";
"2 1 15300 15299 15298 AND";
"2 1 15298 28359 28360 XOR";
"2 1 28423 28360 623 XOR";
"2 1 623 16957 28235 XOR";
"2 1 28487 28360 15297 XOR";
"2 1 16956 28360 15296 XOR";
"2 1 15297 15296 15295 AND";
"2 1 15295 28360 28361 XOR";
"2 1 28424 28361 622 XOR";
"2 1 622 16958 28236 XOR";
"2 1 28488 28361 15294 XOR";
"2 1 16957 28361 15293 XOR";
"2 1 15294 15293 15292 AND";
"2 1 15292 28361 28362 XOR";
"2 1 28425 28362 621 XOR";
"2 1 621 16959 28237 XOR";
"2 1 28489 28362 15291 XOR";
"2 1 16958 28362 15290 XOR";
"2 1 15291 15290 15289 AND";
"2 1 15289 28362 28363 XOR";
"2 1 28426 28363 620 XOR";
"2 1 620 16960 28238 XOR";
"2 1 28490 28363 15288 XOR";
"2 1 16959 28363 15287 XOR";
"2 1 15288 15287 15286 AND";
"2 1 15286 28363 28364 XOR";
"2 1 28427 28364 619 XOR";
"2 1 619 16961 28239 XOR";
"2 1 28491 28364 15285 XOR";
"2 1 16960 28364 15284 XOR";
"2 1 15285 15284 15283 AND";
"2 1 15283 28364 28365 XOR";
"2 1 28428 28365 618 XOR";
"2 1 618 16962 28240 XOR";
"2 1 28492 28365 15282 XOR";
"2 1 16961 28365 15281 XOR";
"2 1 15282 15281 15280 AND";
"2 1 15280 28365 28366 XOR";
"2 1 28429 28366 617 XOR";
"2 1 617 16963 28241 XOR";
"2 1 28493 28366 15279 XOR";
"2 1 16962 28366 15278 XOR";
"2 1 15279 15278 15277 AND";
"2 1 15277 28366 28367 XOR";
"2 1 28430 28367 616 XOR";
"2 1 616 16964 28242 XOR";
"2 1 28494 28367 15276 XOR";
"2 1 16963 28367 15275 XOR";
"2 1 15276 15275 15274 AND";
"2 1 15274 28367 28368 XOR";
"2 1 28431 28368 615 XOR";
"2 1 615 16965 28243 XOR";
"2 1 28495 28368 15273 XOR";
"2 1 16964 28368 15272 XOR";
"2 1 15273 15272 15271 AND";
"2 1 15271 28368 28369 XOR";
"2 1 28432 28369 614 XOR";
"2 1 614 16966 28244 XOR";
"2 1 28496 28369 15270 XOR";
"2 1 16965 28369 15269 XOR";
"2 1 15270 15269 15268 AND";
"2 1 15268 28369 28370 XOR";
"2 1 28433 28370 613 XOR";
"2 1 613 16967 28245 XOR";
"2 1 28497 28370 15267 XOR";
"2 1 16966 28370 15266 XOR";
"2 1 15267 15266 15265 AND";
"2 1 15265 28370 28371 XOR";
"2 1 28434 28371 612 XOR";
"2 1 612 16968 28246 XOR";
"2 1 28498 28371 15264 XOR";
"2 1 16967 28371 15263 XOR";
"2 1 15264 15263 15262 AND";
"2 1 15262 28371 28372 XOR";
"2 1 28435 28372 611 XOR";
"2 1 611 16969 28247 XOR";
"2 1 28499 28372 15261 XOR";
"2 1 16968 28372 15260 XOR";
"2 1 15261 15260 15259 AND";
"2 1 15259 28372 28373 XOR";
"2 1 28436 28373 610 XOR";
"2 1 610 16970 28248 XOR";
"2 1 28500 28373 15258 XOR";
"2 1 16969 28373 15257 XOR";
"2 1 15258 15257 15256 AND";
"2 1 15256 28373 28374 XOR";
"2 1 28437 28374 609 XOR";
"2 1 609 16971 28249 XOR";
"2 1 28501 28374 15255 XOR";
"2 1 16970 28374 15254 XOR";
"2 1 15255 15254 15253 AND";
"2 1 15253 28374 28375 XOR";
"2 1 28438 28375 608 XOR";
"2 1 608 16972 28250 XOR";
"2 1 28502 28375 15252 XOR";
"2 1 16971 28375 15251 XOR";
"2 1 15252 15251 15250 AND";
"2 1 15250 28375 28376 XOR";
"2 1 28439 28376 607 XOR";
"2 1 607 16973 28251 XOR";
"2 1 28503 28376 15249 XOR";
"2 1 16972 28376 15248 XOR";
"2 1 15249 15248 15247 AND";
"2 1 15247 28376 28377 XOR";
"2 1 28440 28377 606 XOR";
"2 1 606 16974 28252 XOR";
"2 1 28504 28377 15246 XOR";
"2 1 16973 28377 15245 XOR";
"2 1 15246 15245 15244 AND";
"2 1 15244 28377 28378 XOR";
"2 1 28441 28378 605 XOR";
"2 1 605 16975 28253 XOR";
"2 1 28505 28378 15243 XOR";
"2 1 16974 28378 15242 XOR";
"2 1 15243 15242 15241 AND";
"2 1 15241 28378 28379 XOR";
"2 1 28442 28379 604 XOR";
"2 1 604 16976 28254 XOR";
"2 1 28506 28379 15240 XOR";
"2 1 16975 28379 15239 XOR";
"2 1 15240 15239 15238 AND";
"2 1 15238 28379 28380 XOR";
"2 1 28443 28380 603 XOR";
"2 1 603 16977 28255 XOR";
"2 1 28507 28380 15237 XOR";
"2 1 16976 28380 15236 XOR";
"2 1 15237 15236 15235 AND";
"2 1 15235 28380 28381 XOR";
"2 1 28444 28381 602 XOR";
"2 1 602 16978 28256 XOR";
"2 1 28508 28381 15234 XOR";
"2 1 16977 28381 15233 XOR";
"2 1 15234 15233 15232 AND";
"2 1 15232 28381 28382 XOR";
"2 1 28445 28382 601 XOR";
"2 1 601 16979 28257 XOR";
"2 1 28509 28382 15231 XOR";
"2 1 16978 28382 15230 XOR";
"2 1 15231 15230 15229 AND";
"2 1 15229 28382 28383 XOR";
"2 1 28446 28383 600 XOR";
"2 1 600 16980 28258 XOR";
"2 1 28510 28383 15228 XOR";
"2 1 16979 28383 15227 XOR";
"2 1 15228 15227 15226 AND";
"2 1 15226 28383 28384 XOR";
"2 1 28447 28384 599 XOR";
"2 1 599 16981 28259 XOR";
"2 1 28511 28384 15225 XOR";
"2 1 16980 28384 15224 XOR";
"2 1 15225 15224 15223 AND";
"2 1 15223 28384 28385 XOR";
"2 1 28448 28385 598 XOR";
"2 1 598 16982 28260 XOR";
"2 1 28512 28385 15222 XOR";
"2 1 16981 28385 15221 XOR";
"2 1 15222 15221 15220 AND";
"2 1 15220 28385 28386 XOR";
"2 1 28449 28386 597 XOR";
"2 1 597 16983 28261 XOR";
"2 1 28513 28386 15219 XOR";
"2 1 16982 28386 15218 XOR";
"2 1 15219 15218 15217 AND";
"2 1 15217 28386 28387 XOR";
"2 1 28450 28387 596 XOR";
"2 1 596 16984 28262 XOR";
"2 1 28514 28387 15216 XOR";
"2 1 16983 28387 15215 XOR";
"2 1 15216 15215 15214 AND";
"2 1 15214 28387 28388 XOR";
"2 1 28451 28388 595 XOR";
"2 1 595 16985 28263 XOR";
"2 1 28515 28388 15213 XOR";
"2 1 16984 28388 15212 XOR";
"2 1 15213 15212 15211 AND";
"2 1 15211 28388 28389 XOR";
"2 1 28452 28389 594 XOR";
"2 1 594 16986 28264 XOR";
"2 1 28516 28389 15210 XOR";
"2 1 16985 28389 15209 XOR";
"2 1 15210 15209 15208 AND";
"2 1 15208 28389 28390 XOR";
"2 1 28453 28390 593 XOR";
"2 1 593 16987 28265 XOR";
"2 1 28517 28390 15207 XOR";
"2 1 16986 28390 15206 XOR";
"2 1 15207 15206 15205 AND";
"2 1 15205 28390 28391 XOR";
"2 1 28454 28391 592 XOR";
"2 1 592 16988 28266 XOR";
"2 1 28518 28391 15204 XOR";
"2 1 16987 28391 15203 XOR";
"2 1 15204 15203 15202 AND";
"2 1 15202 28391 28392 XOR";
"2 1 28455 28392 591 XOR";
"2 1 591 16989 28267 XOR";
"2 1 28519 28392 15201 XOR";
"2 1 16988 28392 15200 XOR";
"2 1 15201 15200 15199 AND";
"2 1 15199 28392 28393 XOR";
"2 1 28456 28393 590 XOR";
"2 1 590 16990 28268 XOR";
"2 1 28520 28393 15198 XOR";
"2 1 16989 28393 15197 XOR";
"2 1 15198 15197 15196 AND";
"2 1 15196 28393 28394 XOR";
"2 1 28457 28394 589 XOR";
"2 1 589 16991 28269 XOR";
"2 1 28521 28394 15195 XOR";
"2 1 16990 28394 15194 XOR";
"2 1 15195 15194 15193 AND";
"2 1 15193 28394 28395 XOR";
"2 1 28458 28395 588 XOR";
"2 1 588 16992 28270 XOR";
"2 1 28522 28395 15192 XOR";
"2 1 16991 28395 15191 XOR";
"2 1 15192 15191 15190 AND";
"2 1 15190 28395 28396 XOR";
"2 1 28459 28396 587 XOR";
"2 1 587 16993 28271 XOR";
"2 1 28523 28396 15189 XOR";
"2 1 16992 28396 15188 XOR";
"2 1 15189 15188 15187 AND";
"2 1 15187 28396 28397 XOR";
"2 1 28460 28397 586 XOR";
"2 1 586 16994 28272 XOR";
"2 1 28524 28397 15186 XOR";
"2 1 16993 28397 15185 XOR";
"2 1 15186 15185 15184 AND";
"2 1 15184 28397 28398 XOR";
"2 1 28461 28398 585 XOR";
"2 1 585 16995 28273 XOR";
"2 1 28525 28398 15183 XOR";
"2 1 16994 28398 15182 XOR";
"2 1 15183 15182 15181 AND";
"2 1 15181 28398 28399 XOR";
"2 1 28462 28399 584 XOR";
"2 1 584 16996 28274 XOR";
"2 1 28526 28399 15180 XOR";
"2 1 16995 28399 15179 XOR";
"2 1 15180 15179 15178 AND";
"2 1 15178 28399 28400 XOR";
"2 1 28463 28400 583 XOR";
"2 1 583 16997 28275 XOR";
"2 1 28527 28400 15177 XOR";
"2 1 16996 28400 15176 XOR";
"2 1 15177 15176 15175 AND";
"2 1 15175 28400 28401 XOR";
"2 1 28464 28401 582 XOR";
"2 1 582 16998 28276 XOR";
"2 1 28528 28401 15174 XOR";
"2 1 16997 28401 15173 XOR";
"2 1 15174 15173 15172 AND";
"2 1 15172 28401 28402 XOR";
"2 1 28465 28402 581 XOR";
"2 1 581 16999 28277 XOR";
"2 1 28529 28402 15171 XOR";
"2 1 16998 28402 15170 XOR";
"2 1 15171 15170 15169 AND";
"2 1 15169 28402 28403 XOR";
"2 1 28466 28403 580 XOR";
"2 1 580 17000 28278 XOR";
"2 1 28530 28403 15168 XOR";
"2 1 16999 28403 15167 XOR";
"2 1 15168 15167 15166 AND";
"2 1 15166 28403 28404 XOR";
"2 1 28467 28404 579 XOR";
"2 1 579 17001 28279 XOR";
"2 1 28531 28404 15165 XOR";
"2 1 17000 28404 15164 XOR";
"2 1 15165 15164 15163 AND";
"2 1 15163 28404 28405 XOR";
"2 1 28468 28405 578 XOR";
"2 1 578 17002 28280 XOR";
"2 1 28532 28405 15162 XOR";
"2 1 17001 28405 15161 XOR";
"2 1 15162 15161 15160 AND";
"2 1 15160 28405 28406 XOR";
"2 1 28469 28406 577 XOR";
"2 1 577 17003 28281 XOR";
"2 1 28533 28406 15159 XOR";
"2 1 17002 28406 15158 XOR";
"2 1 15159 15158 15157 AND";
"2 1 15157 28406 28407 XOR";
"2 1 28470 28407 576 XOR";
"2 1 576 17004 28282 XOR";
"2 1 28534 28407 15156 XOR";
"2 1 17003 28407 15155 XOR";
"2 1 15156 15155 15154 AND";
"2 1 15154 28407 28408 XOR";
"2 1 28471 28408 575 XOR";
"2 1 575 17005 28283 XOR";
"2 1 28535 28408 15153 XOR";
"2 1 17004 28408 15152 XOR";
"2 1 15153 15152 15151 AND";
"2 1 15151 28408 28409 XOR";
"2 1 28472 28409 574 XOR";
"2 1 574 17006 28284 XOR";
"2 1 28536 28409 15150 XOR";
"2 1 17005 28409 15149 XOR";
"2 1 15150 15149 15148 AND";
"2 1 15148 28409 28410 XOR";
"2 1 28473 28410 573 XOR";
"2 1 573 17007 28285 XOR";
"2 1 28537 28410 15147 XOR";
"2 1 17006 28410 15146 XOR";
"2 1 15147 15146 15145 AND";
"2 1 15145 28410 28411 XOR";
"2 1 28474 28411 572 XOR";
"2 1 572 17008 28286 XOR";
"2 1 28538 28411 15144 XOR";
"2 1 17007 28411 15143 XOR";
"2 1 15144 15143 15142 AND";
"2 1 15142 28411 28412 XOR";
"2 1 28475 28412 571 XOR";
"2 1 571 17009 28287 XOR";
"2 1 28539 28412 15141 XOR";
"2 1 17008 28412 15140 XOR";
"2 1 15141 15140 15139 AND";
"2 1 15139 28412 28413 XOR";
"2 1 28476 28413 136 XOR";
"1 1 136 16686 INV";
"2 1 16875 16686 28288 XOR";
"2 1 633 16686 28289 XOR";
"2 1 632 16686 28290 XOR";
"2 1 631 16686 28291 XOR";
"2 1 630 16686 28292 XOR";
"2 1 629 16686 28293 XOR";
"2 1 628 16686 28294 XOR";
"2 1 627 16686 28295 XOR";
"2 1 626 16686 28296 XOR";
"2 1 625 16686 28297 XOR";
"2 1 624 16686 28298 XOR";
"2 1 623 16686 28299 XOR";
"2 1 622 16686 28300 XOR";
"2 1 621 16686 28301 XOR";
"2 1 620 16686 28302 XOR";
"2 1 619 16686 28303 XOR";
"2 1 618 16686 28304 XOR";
"2 1 617 16686 28305 XOR";
"2 1 616 16686 28306 XOR";
"2 1 615 16686 28307 XOR";
"2 1 614 16686 28308 XOR";
"2 1 613 16686 28309 XOR";
"2 1 612 16686 28310 XOR";
"2 1 611 16686 28311 XOR";
"2 1 610 16686 28312 XOR";
"2 1 609 16686 28313 XOR";
"2 1 608 16686 28314 XOR";
"2 1 607 16686 28315 XOR";
"2 1 606 16686 28316 XOR";
"2 1 605 16686 28317 XOR";
"2 1 604 16686 28318 XOR";
"2 1 603 16686 28319 XOR";
"2 1 602 16686 28320 XOR";
"2 1 601 16686 28321 XOR";
"2 1 600 16686 28322 XOR";
"2 1 599 16686 28323 XOR";
"2 1 598 16686 28324 XOR";
"2 1 597 16686 28325 XOR";
"2 1 596 16686 28326 XOR";
"2 1 595 16686 28327 XOR";
"2 1 594 16686 28328 XOR";
"2 1 593 16686 28329 XOR";
"2 1 592 16686 28330 XOR";
"2 1 591 16686 28331 XOR";
"2 1 590 16686 28332 XOR";
"2 1 589 16686 28333 XOR";
"2 1 588 16686 28334 XOR";
"2 1 587 16686 28335 XOR";
"2 1 586 16686 28336 XOR";
"2 1 585 16686 28337 XOR";
"2 1 584 16686 28338 XOR";
"2 1 583 16686 28339 XOR";
"2 1 582 16686 28340 XOR";
"2 1 581 16686 28341 XOR";
"2 1 580 16686 28342 XOR";
"2 1 579 16686 28343 XOR";
"2 1 578 16686 28344 XOR";
"2 1 577 16686 28345 XOR";
"2 1 576 16686 28346 XOR";
"2 1 575 16686 28347 XOR";
"2 1 574 16686 28348 XOR";
"2 1 573 16686 28349 XOR";
"2 1 572 16686 28350 XOR";
"2 1 28288 16946 28162 AND";
"2 1 28225 28162 695 XOR";
"2 1 695 16948 28037 XOR";
"2 1 28289 28162 15138 XOR";
"2 1 16947 28162 15137 XOR";
"2 1 15138 15137 15136 AND";
"2 1 15136 28162 28163 XOR";
"2 1 28226 28163 694 XOR";
"2 1 694 16949 28038 XOR";
"2 1 28290 28163 15135 XOR";
"2 1 16948 28163 15134 XOR";
"2 1 15135 15134 15133 AND";
"2 1 15133 28163 28164 XOR";
"2 1 28227 28164 693 XOR";
"2 1 693 16950 28039 XOR";
"2 1 28291 28164 15132 XOR";
"2 1 16949 28164 15131 XOR";
"2 1 15132 15131 15130 AND";
"2 1 15130 28164 28165 XOR";
"2 1 28228 28165 692 XOR";
"2 1 692 16951 28040 XOR";
"2 1 28292 28165 15129 XOR";
"2 1 16950 28165 15128 XOR";
"2 1 15129 15128 15127 AND";
"2 1 15127 28165 28166 XOR";
"2 1 28229 28166 691 XOR";
"2 1 691 16952 28041 XOR";
"2 1 28293 28166 15126 XOR";
"2 1 16951 28166 15125 XOR";
"2 1 15126 15125 15124 AND";
"2 1 15124 28166 28167 XOR";
"2 1 28230 28167 690 XOR";
"2 1 690 16953 28042 XOR";
"2 1 28294 28167 15123 XOR";
"2 1 16952 28167 15122 XOR";
"2 1 15123 15122 15121 AND";
"2 1 15121 28167 28168 XOR";
"2 1 28231 28168 689 XOR";
"2 1 689 16954 28043 XOR";
"2 1 28295 28168 15120 XOR";
"2 1 16953 28168 15119 XOR";
"2 1 15120 15119 15118 AND";
"2 1 15118 28168 28169 XOR";
"2 1 28232 28169 688 XOR";
"2 1 688 16955 28044 XOR";
"2 1 28296 28169 15117 XOR";
"2 1 16954 28169 15116 XOR";
"2 1 15117 15116 15115 AND";
"2 1 15115 28169 28170 XOR";
"2 1 28233 28170 687 XOR";
"2 1 687 16956 28045 XOR";
"2 1 28297 28170 15114 XOR";
"2 1 16955 28170 15113 XOR";
"2 1 15114 15113 15112 AND";
"2 1 15112 28170 28171 XOR";
"2 1 28234 28171 686 XOR";
"2 1 686 16957 28046 XOR";
"2 1 28298 28171 15111 XOR";
"2 1 16956 28171 15110 XOR";
"2 1 15111 15110 15109 AND";
"2 1 15109 28171 28172 XOR";
"2 1 28235 28172 685 XOR";
"2 1 685 16958 28047 XOR";
"2 1 28299 28172 15108 XOR";
"2 1 16957 28172 15107 XOR";
"2 1 15108 15107 15106 AND";
"2 1 15106 28172 28173 XOR";
"2 1 28236 28173 684 XOR";
"2 1 684 16959 28048 XOR";
"2 1 28300 28173 15105 XOR";
"2 1 16958 28173 15104 XOR";
"2 1 15105 15104 15103 AND";
"2 1 15103 28173 28174 XOR";
"2 1 28237 28174 683 XOR";
"2 1 683 16960 28049 XOR";
"2 1 28301 28174 15102 XOR";
"2 1 16959 28174 15101 XOR";
"2 1 15102 15101 15100 AND";
"2 1 15100 28174 28175 XOR";
"2 1 28238 28175 682 XOR";
"2 1 682 16961 28050 XOR";
"2 1 28302 28175 15099 XOR";
"2 1 16960 28175 15098 XOR";
"2 1 15099 15098 15097 AND";
"2 1 15097 28175 28176 XOR";
"2 1 28239 28176 681 XOR";
"2 1 681 16962 28051 XOR";
"2 1 28303 28176 15096 XOR";
"2 1 16961 28176 15095 XOR";
"2 1 15096 15095 15094 AND";
"2 1 15094 28176 28177 XOR";
"2 1 28240 28177 680 XOR";
"2 1 680 16963 28052 XOR";
"2 1 28304 28177 15093 XOR";
"2 1 16962 28177 15092 XOR";
"2 1 15093 15092 15091 AND";
"2 1 15091 28177 28178 XOR";
"2 1 28241 28178 679 XOR";
"2 1 679 16964 28053 XOR";
"2 1 28305 28178 15090 XOR";
"2 1 16963 28178 15089 XOR";
"2 1 15090 15089 15088 AND";
"2 1 15088 28178 28179 XOR";
"2 1 28242 28179 678 XOR";
"2 1 678 16965 28054 XOR";
"2 1 28306 28179 15087 XOR";
"2 1 16964 28179 15086 XOR";
"2 1 15087 15086 15085 AND";
"2 1 15085 28179 28180 XOR";
"2 1 28243 28180 677 XOR";
"2 1 677 16966 28055 XOR";
"2 1 28307 28180 15084 XOR";
"2 1 16965 28180 15083 XOR";
"2 1 15084 15083 15082 AND";
"2 1 15082 28180 28181 XOR";
"2 1 28244 28181 676 XOR";
"2 1 676 16967 28056 XOR";
"2 1 28308 28181 15081 XOR";
"2 1 16966 28181 15080 XOR";
"2 1 15081 15080 15079 AND";
"2 1 15079 28181 28182 XOR";
"2 1 28245 28182 675 XOR";
"2 1 675 16968 28057 XOR";
"2 1 28309 28182 15078 XOR";
"2 1 16967 28182 15077 XOR";
"2 1 15078 15077 15076 AND";
"2 1 15076 28182 28183 XOR";
"2 1 28246 28183 674 XOR";
"2 1 674 16969 28058 XOR";
"2 1 28310 28183 15075 XOR";
"2 1 16968 28183 15074 XOR";
"2 1 15075 15074 15073 AND";
"2 1 15073 28183 28184 XOR";
"2 1 28247 28184 673 XOR";
"2 1 673 16970 28059 XOR";
"2 1 28311 28184 15072 XOR";
"2 1 16969 28184 15071 XOR";
"2 1 15072 15071 15070 AND";
"2 1 15070 28184 28185 XOR";
"2 1 28248 28185 672 XOR";
"2 1 672 16971 28060 XOR";
"2 1 28312 28185 15069 XOR";
"2 1 16970 28185 15068 XOR";
"2 1 15069 15068 15067 AND";
"2 1 15067 28185 28186 XOR";
"2 1 28249 28186 671 XOR";
"2 1 671 16972 28061 XOR";
"2 1 28313 28186 15066 XOR";
"2 1 16971 28186 15065 XOR";
"2 1 15066 15065 15064 AND";
"2 1 15064 28186 28187 XOR";
"2 1 28250 28187 670 XOR";
"2 1 670 16973 28062 XOR";
"2 1 28314 28187 15063 XOR";
"2 1 16972 28187 15062 XOR";
"2 1 15063 15062 15061 AND";
"2 1 15061 28187 28188 XOR";
"2 1 28251 28188 669 XOR";
"2 1 669 16974 28063 XOR";
"2 1 28315 28188 15060 XOR";
"2 1 16973 28188 15059 XOR";
"2 1 15060 15059 15058 AND";
"2 1 15058 28188 28189 XOR";
"2 1 28252 28189 668 XOR";
"2 1 668 16975 28064 XOR";
"2 1 28316 28189 15057 XOR";
"2 1 16974 28189 15056 XOR";
"2 1 15057 15056 15055 AND";
"2 1 15055 28189 28190 XOR";
"2 1 28253 28190 667 XOR";
"2 1 667 16976 28065 XOR";
"2 1 28317 28190 15054 XOR";
"2 1 16975 28190 15053 XOR";
"2 1 15054 15053 15052 AND";
"2 1 15052 28190 28191 XOR";
"2 1 28254 28191 666 XOR";
"2 1 666 16977 28066 XOR";
"2 1 28318 28191 15051 XOR";
"2 1 16976 28191 15050 XOR";
"2 1 15051 15050 15049 AND";
"2 1 15049 28191 28192 XOR";
"2 1 28255 28192 665 XOR";
"2 1 665 16978 28067 XOR";
"2 1 28319 28192 15048 XOR";
"2 1 16977 28192 15047 XOR";
"2 1 15048 15047 15046 AND";
"2 1 15046 28192 28193 XOR";
"2 1 28256 28193 664 XOR";
"2 1 664 16979 28068 XOR";
"2 1 28320 28193 15045 XOR";
"2 1 16978 28193 15044 XOR";
"2 1 15045 15044 15043 AND";
"2 1 15043 28193 28194 XOR";
"2 1 28257 28194 663 XOR";
"2 1 663 16980 28069 XOR";
"2 1 28321 28194 15042 XOR";
"2 1 16979 28194 15041 XOR";
"2 1 15042 15041 15040 AND";
"2 1 15040 28194 28195 XOR";
"2 1 28258 28195 662 XOR";
"2 1 662 16981 28070 XOR";
"2 1 28322 28195 15039 XOR";
"2 1 16980 28195 15038 XOR";
"2 1 15039 15038 15037 AND";
"2 1 15037 28195 28196 XOR";
"2 1 28259 28196 661 XOR";
"2 1 661 16982 28071 XOR";
"2 1 28323 28196 15036 XOR";
"2 1 16981 28196 15035 XOR";
"2 1 15036 15035 15034 AND";
"2 1 15034 28196 28197 XOR";
"2 1 28260 28197 660 XOR";
"2 1 660 16983 28072 XOR";
"2 1 28324 28197 15033 XOR";
"2 1 16982 28197 15032 XOR";
"2 1 15033 15032 15031 AND";
"2 1 15031 28197 28198 XOR";
"2 1 28261 28198 659 XOR";
"2 1 659 16984 28073 XOR";
"2 1 28325 28198 15030 XOR";
"2 1 16983 28198 15029 XOR";
"2 1 15030 15029 15028 AND";
"2 1 15028 28198 28199 XOR";
"2 1 28262 28199 658 XOR";
"2 1 658 16985 28074 XOR";
"2 1 28326 28199 15027 XOR";
"2 1 16984 28199 15026 XOR";
"2 1 15027 15026 15025 AND";
"2 1 15025 28199 28200 XOR";
"2 1 28263 28200 657 XOR";
"2 1 657 16986 28075 XOR";
"2 1 28327 28200 15024 XOR";
"2 1 16985 28200 15023 XOR";
"2 1 15024 15023 15022 AND";
"2 1 15022 28200 28201 XOR";
"2 1 28264 28201 656 XOR";
"2 1 656 16987 28076 XOR";
"2 1 28328 28201 15021 XOR";
"2 1 16986 28201 15020 XOR";
"2 1 15021 15020 15019 AND";
"2 1 15019 28201 28202 XOR";
"2 1 28265 28202 655 XOR";
"2 1 655 16988 28077 XOR";
"2 1 28329 28202 15018 XOR";
"2 1 16987 28202 15017 XOR";
"2 1 15018 15017 15016 AND";
"2 1 15016 28202 28203 XOR";
"2 1 28266 28203 654 XOR";
"2 1 654 16989 28078 XOR";
"2 1 28330 28203 15015 XOR";
"2 1 16988 28203 15014 XOR";
"2 1 15015 15014 15013 AND";
"2 1 15013 28203 28204 XOR";
"2 1 28267 28204 653 XOR";
"2 1 653 16990 28079 XOR";
"2 1 28331 28204 15012 XOR";
"2 1 16989 28204 15011 XOR";
"2 1 15012 15011 15010 AND";
"2 1 15010 28204 28205 XOR";
"2 1 28268 28205 652 XOR";
"2 1 652 16991 28080 XOR";
"2 1 28332 28205 15009 XOR";
"2 1 16990 28205 15008 XOR";
"2 1 15009 15008 15007 AND";
"2 1 15007 28205 28206 XOR";
"2 1 28269 28206 651 XOR";
"2 1 651 16992 28081 XOR";
"2 1 28333 28206 15006 XOR";
"2 1 16991 28206 15005 XOR";
"2 1 15006 15005 15004 AND";
"2 1 15004 28206 28207 XOR";
"2 1 28270 28207 650 XOR";
"2 1 650 16993 28082 XOR";
"2 1 28334 28207 15003 XOR";
"2 1 16992 28207 15002 XOR";
"2 1 15003 15002 15001 AND";
"2 1 15001 28207 28208 XOR";
"2 1 28271 28208 649 XOR";
"2 1 649 16994 28083 XOR";
"2 1 28335 28208 15000 XOR";
"2 1 16993 28208 14999 XOR";
"2 1 15000 14999 14998 AND";
"2 1 14998 28208 28209 XOR";
"2 1 28272 28209 648 XOR";
"2 1 648 16995 28084 XOR";
"2 1 28336 28209 14997 XOR";
"2 1 16994 28209 14996 XOR";
"2 1 14997 14996 14995 AND";
"2 1 14995 28209 28210 XOR";
"2 1 28273 28210 647 XOR";
"2 1 647 16996 28085 XOR";
"2 1 28337 28210 14994 XOR";
"2 1 16995 28210 14993 XOR";
"2 1 14994 14993 14992 AND";
"2 1 14992 28210 28211 XOR";
"2 1 28274 28211 646 XOR";
"2 1 646 16997 28086 XOR";
"2 1 28338 28211 14991 XOR";
"2 1 16996 28211 14990 XOR";
"2 1 14991 14990 14989 AND";
"2 1 14989 28211 28212 XOR";
"2 1 28275 28212 645 XOR";
"2 1 645 16998 28087 XOR";
"2 1 28339 28212 14988 XOR";
"2 1 16997 28212 14987 XOR";
"2 1 14988 14987 14986 AND";
"2 1 14986 28212 28213 XOR";
"2 1 28276 28213 644 XOR";
"2 1 644 16999 28088 XOR";
"2 1 28340 28213 14985 XOR";
"2 1 16998 28213 14984 XOR";
"2 1 14985 14984 14983 AND";
"2 1 14983 28213 28214 XOR";
"2 1 28277 28214 643 XOR";
"2 1 643 17000 28089 XOR";
"2 1 28341 28214 14982 XOR";
"2 1 16999 28214 14981 XOR";
"2 1 14982 14981 14980 AND";
"2 1 14980 28214 28215 XOR";
"2 1 28278 28215 642 XOR";
"2 1 642 17001 28090 XOR";
"2 1 28342 28215 14979 XOR";
"2 1 17000 28215 14978 XOR";
"2 1 14979 14978 14977 AND";
"2 1 14977 28215 28216 XOR";
"2 1 28279 28216 641 XOR";
"2 1 641 17002 28091 XOR";
"2 1 28343 28216 14976 XOR";
"2 1 17001 28216 14975 XOR";
"2 1 14976 14975 14974 AND";
"2 1 14974 28216 28217 XOR";
"2 1 28280 28217 640 XOR";
"2 1 640 17003 28092 XOR";
"2 1 28344 28217 14973 XOR";
"2 1 17002 28217 14972 XOR";
"2 1 14973 14972 14971 AND";
"2 1 14971 28217 28218 XOR";
"2 1 28281 28218 639 XOR";
"2 1 639 17004 28093 XOR";
"2 1 28345 28218 14970 XOR";
"2 1 17003 28218 14969 XOR";
"2 1 14970 14969 14968 AND";
"2 1 14968 28218 28219 XOR";
"2 1 28282 28219 638 XOR";
"2 1 638 17005 28094 XOR";
"2 1 28346 28219 14967 XOR";
"2 1 17004 28219 14966 XOR";
"2 1 14967 14966 14965 AND";
"2 1 14965 28219 28220 XOR";
"2 1 28283 28220 637 XOR";
"2 1 637 17006 28095 XOR";
"2 1 28347 28220 14964 XOR";
"2 1 17005 28220 14963 XOR";
"2 1 14964 14963 14962 AND";
"2 1 14962 28220 28221 XOR";
"2 1 28284 28221 636 XOR";
"2 1 636 17007 28096 XOR";
"2 1 28348 28221 14961 XOR";
"2 1 17006 28221 14960 XOR";
"2 1 14961 14960 14959 AND";
"2 1 14959 28221 28222 XOR";
"2 1 28285 28222 635 XOR";
"2 1 635 17008 28097 XOR";
"2 1 28349 28222 14958 XOR";
"2 1 17007 28222 14957 XOR";
"2 1 14958 14957 14956 AND";
"2 1 14956 28222 28223 XOR";
"2 1 28286 28223 634 XOR";
"2 1 634 17009 28098 XOR";
"2 1 28350 28223 14955 XOR";
"2 1 17008 28223 14954 XOR";
"2 1 14955 14954 14953 AND";
"2 1 14953 28223 28224 XOR";
"2 1 28287 28224 137 XOR";
"2 1 16686 4535 17570 AND";
"1 1 137 16685 INV";
"2 1 16874 16685 28099 XOR";
"2 1 696 16685 28100 XOR";
"2 1 695 16685 28101 XOR";
"2 1 694 16685 28102 XOR";
"2 1 693 16685 28103 XOR";
"2 1 692 16685 28104 XOR";
"2 1 691 16685 28105 XOR";
"2 1 690 16685 28106 XOR";
"2 1 689 16685 28107 XOR";
"2 1 688 16685 28108 XOR";
"2 1 687 16685 28109 XOR";
"2 1 686 16685 28110 XOR";
"2 1 685 16685 28111 XOR";
"2 1 684 16685 28112 XOR";
"2 1 683 16685 28113 XOR";
"2 1 682 16685 28114 XOR";
"2 1 681 16685 28115 XOR";
"2 1 680 16685 28116 XOR";
"2 1 679 16685 28117 XOR";
"2 1 678 16685 28118 XOR";
"2 1 677 16685 28119 XOR";
"2 1 676 16685 28120 XOR";
"2 1 675 16685 28121 XOR";
"2 1 674 16685 28122 XOR";
"2 1 673 16685 28123 XOR";
"2 1 672 16685 28124 XOR";
"2 1 671 16685 28125 XOR";
"2 1 670 16685 28126 XOR";
"2 1 669 16685 28127 XOR";
"2 1 668 16685 28128 XOR";
"2 1 667 16685 28129 XOR";
"2 1 666 16685 28130 XOR";
"2 1 665 16685 28131 XOR";
"2 1 664 16685 28132 XOR";
"2 1 663 16685 28133 XOR";
"2 1 662 16685 28134 XOR";
"2 1 661 16685 28135 XOR";
"2 1 660 16685 28136 XOR";
"2 1 659 16685 28137 XOR";
"2 1 658 16685 28138 XOR";
"2 1 657 16685 28139 XOR";
"2 1 656 16685 28140 XOR";
"2 1 655 16685 28141 XOR";
"2 1 654 16685 28142 XOR";
"2 1 653 16685 28143 XOR";
"2 1 652 16685 28144 XOR";
"2 1 651 16685 28145 XOR";
"2 1 650 16685 28146 XOR";
"2 1 649 16685 28147 XOR";
"2 1 648 16685 28148 XOR";
"2 1 647 16685 28149 XOR";
"2 1 646 16685 28150 XOR";
"2 1 645 16685 28151 XOR";
"2 1 644 16685 28152 XOR";
"2 1 643 16685 28153 XOR";
"2 1 642 16685 28154 XOR";
"2 1 641 16685 28155 XOR";
"2 1 640 16685 28156 XOR";
"2 1 639 16685 28157 XOR";
"2 1 638 16685 28158 XOR";
"2 1 637 16685 28159 XOR";
"2 1 636 16685 28160 XOR";
"2 1 635 16685 28161 XOR";
"2 1 28099 16946 27973 AND";
"2 1 28036 27973 758 XOR";
"2 1 758 16948 27848 XOR";
"2 1 28100 27973 14952 XOR";
"2 1 16947 27973 14951 XOR";
"2 1 14952 14951 14950 AND";
"2 1 14950 27973 27974 XOR";
"2 1 28037 27974 757 XOR";
"2 1 757 16949 27849 XOR";
"2 1 28101 27974 14949 XOR";
"2 1 16948 27974 14948 XOR";
"2 1 14949 14948 14947 AND";
"2 1 14947 27974 27975 XOR";
"2 1 28038 27975 756 XOR";
"2 1 756 16950 27850 XOR";
"2 1 28102 27975 14946 XOR";
"2 1 16949 27975 14945 XOR";
"2 1 14946 14945 14944 AND";
"2 1 14944 27975 27976 XOR";
"2 1 28039 27976 755 XOR";
"2 1 755 16951 27851 XOR";
"2 1 28103 27976 14943 XOR";
"2 1 16950 27976 14942 XOR";
"2 1 14943 14942 14941 AND";
"2 1 14941 27976 27977 XOR";
"2 1 28040 27977 754 XOR";
"2 1 754 16952 27852 XOR";
"2 1 28104 27977 14940 XOR";
"2 1 16951 27977 14939 XOR";
"2 1 14940 14939 14938 AND";
"2 1 14938 27977 27978 XOR";
"2 1 28041 27978 753 XOR";
"2 1 753 16953 27853 XOR";
"2 1 28105 27978 14937 XOR";
"2 1 16952 27978 14936 XOR";
"2 1 14937 14936 14935 AND";
"2 1 14935 27978 27979 XOR";
"2 1 28042 27979 752 XOR";
"2 1 752 16954 27854 XOR";
"2 1 28106 27979 14934 XOR";
"2 1 16953 27979 14933 XOR";
"2 1 14934 14933 14932 AND";
"2 1 14932 27979 27980 XOR";
"2 1 28043 27980 751 XOR";
"2 1 751 16955 27855 XOR";
"2 1 28107 27980 14931 XOR";
"2 1 16954 27980 14930 XOR";
"2 1 14931 14930 14929 AND";
"2 1 14929 27980 27981 XOR";
"2 1 28044 27981 750 XOR";
"2 1 750 16956 27856 XOR";
"2 1 28108 27981 14928 XOR";
"2 1 16955 27981 14927 XOR";
"2 1 14928 14927 14926 AND";
"2 1 14926 27981 27982 XOR";
"2 1 28045 27982 749 XOR";
"2 1 749 16957 27857 XOR";
"2 1 28109 27982 14925 XOR";
"2 1 16956 27982 14924 XOR";
"2 1 14925 14924 14923 AND";
"2 1 14923 27982 27983 XOR";
"2 1 28046 27983 748 XOR";
"2 1 748 16958 27858 XOR";
"2 1 28110 27983 14922 XOR";
"2 1 16957 27983 14921 XOR";
"2 1 14922 14921 14920 AND";
"2 1 14920 27983 27984 XOR";
"2 1 28047 27984 747 XOR";
"2 1 747 16959 27859 XOR";
"2 1 28111 27984 14919 XOR";
"2 1 16958 27984 14918 XOR";
"2 1 14919 14918 14917 AND";
"2 1 14917 27984 27985 XOR";
"2 1 28048 27985 746 XOR";
"2 1 746 16960 27860 XOR";
"2 1 28112 27985 14916 XOR";
"2 1 16959 27985 14915 XOR";
"2 1 14916 14915 14914 AND";
"2 1 14914 27985 27986 XOR";
"2 1 28049 27986 745 XOR";
"2 1 745 16961 27861 XOR";
"2 1 28113 27986 14913 XOR";
"2 1 16960 27986 14912 XOR";
"2 1 14913 14912 14911 AND";
"2 1 14911 27986 27987 XOR";
"2 1 28050 27987 744 XOR";
"2 1 744 16962 27862 XOR";
"2 1 28114 27987 14910 XOR";
"2 1 16961 27987 14909 XOR";
"2 1 14910 14909 14908 AND";
"2 1 14908 27987 27988 XOR";
"2 1 28051 27988 743 XOR";
"2 1 743 16963 27863 XOR";
"2 1 28115 27988 14907 XOR";
"2 1 16962 27988 14906 XOR";
"2 1 14907 14906 14905 AND";
"2 1 14905 27988 27989 XOR";
"2 1 28052 27989 742 XOR";
"2 1 742 16964 27864 XOR";
"2 1 28116 27989 14904 XOR";
"2 1 16963 27989 14903 XOR";
"2 1 14904 14903 14902 AND";
"2 1 14902 27989 27990 XOR";
"2 1 28053 27990 741 XOR";
"2 1 741 16965 27865 XOR";
"2 1 28117 27990 14901 XOR";
"2 1 16964 27990 14900 XOR";
"2 1 14901 14900 14899 AND";
"2 1 14899 27990 27991 XOR";
"2 1 28054 27991 740 XOR";
"2 1 740 16966 27866 XOR";
"2 1 28118 27991 14898 XOR";
"2 1 16965 27991 14897 XOR";
"2 1 14898 14897 14896 AND";
"2 1 14896 27991 27992 XOR";
"2 1 28055 27992 739 XOR";
"2 1 739 16967 27867 XOR";
"2 1 28119 27992 14895 XOR";
"2 1 16966 27992 14894 XOR";
"2 1 14895 14894 14893 AND";
"2 1 14893 27992 27993 XOR";
"2 1 28056 27993 738 XOR";
"2 1 738 16968 27868 XOR";
"2 1 28120 27993 14892 XOR";
"2 1 16967 27993 14891 XOR";
"2 1 14892 14891 14890 AND";
"2 1 14890 27993 27994 XOR";
"2 1 28057 27994 737 XOR";
"2 1 737 16969 27869 XOR";
"2 1 28121 27994 14889 XOR";
"2 1 16968 27994 14888 XOR";
"2 1 14889 14888 14887 AND";
"2 1 14887 27994 27995 XOR";
"2 1 28058 27995 736 XOR";
"2 1 736 16970 27870 XOR";
"2 1 28122 27995 14886 XOR";
"2 1 16969 27995 14885 XOR";
"2 1 14886 14885 14884 AND";
"2 1 14884 27995 27996 XOR";
"2 1 28059 27996 735 XOR";
"2 1 735 16971 27871 XOR";
"2 1 28123 27996 14883 XOR";
"2 1 16970 27996 14882 XOR";
"2 1 14883 14882 14881 AND";
"2 1 14881 27996 27997 XOR";
"2 1 28060 27997 734 XOR";
"2 1 734 16972 27872 XOR";
"2 1 28124 27997 14880 XOR";
"2 1 16971 27997 14879 XOR";
"2 1 14880 14879 14878 AND";
"2 1 14878 27997 27998 XOR";
"2 1 28061 27998 733 XOR";
"2 1 733 16973 27873 XOR";
"2 1 28125 27998 14877 XOR";
"2 1 16972 27998 14876 XOR";
"2 1 14877 14876 14875 AND";
"2 1 14875 27998 27999 XOR";
"2 1 28062 27999 732 XOR";
"2 1 732 16974 27874 XOR";
"2 1 28126 27999 14874 XOR";
"2 1 16973 27999 14873 XOR";
"2 1 14874 14873 14872 AND";
"2 1 14872 27999 28000 XOR";
"2 1 28063 28000 731 XOR";
"2 1 731 16975 27875 XOR";
"2 1 28127 28000 14871 XOR";
"2 1 16974 28000 14870 XOR";
"2 1 14871 14870 14869 AND";
"2 1 14869 28000 28001 XOR";
"2 1 28064 28001 730 XOR";
"2 1 730 16976 27876 XOR";
"2 1 28128 28001 14868 XOR";
"2 1 16975 28001 14867 XOR";
"2 1 14868 14867 14866 AND";
"2 1 14866 28001 28002 XOR";
"2 1 28065 28002 729 XOR";
"2 1 729 16977 27877 XOR";
"2 1 28129 28002 14865 XOR";
"2 1 16976 28002 14864 XOR";
"2 1 14865 14864 14863 AND";
"2 1 14863 28002 28003 XOR";
"2 1 28066 28003 728 XOR";
"2 1 728 16978 27878 XOR";
"2 1 28130 28003 14862 XOR";
"2 1 16977 28003 14861 XOR";
"2 1 14862 14861 14860 AND";
"2 1 14860 28003 28004 XOR";
"2 1 28067 28004 727 XOR";
"2 1 727 16979 27879 XOR";
"2 1 28131 28004 14859 XOR";
"2 1 16978 28004 14858 XOR";
"2 1 14859 14858 14857 AND";
"2 1 14857 28004 28005 XOR";
"2 1 28068 28005 726 XOR";
"2 1 726 16980 27880 XOR";
"2 1 28132 28005 14856 XOR";
"2 1 16979 28005 14855 XOR";
"2 1 14856 14855 14854 AND";
"2 1 14854 28005 28006 XOR";
"2 1 28069 28006 725 XOR";
"2 1 725 16981 27881 XOR";
"2 1 28133 28006 14853 XOR";
"2 1 16980 28006 14852 XOR";
"2 1 14853 14852 14851 AND";
"2 1 14851 28006 28007 XOR";
"2 1 28070 28007 724 XOR";
"2 1 724 16982 27882 XOR";
"2 1 28134 28007 14850 XOR";
"2 1 16981 28007 14849 XOR";
"2 1 14850 14849 14848 AND";
"2 1 14848 28007 28008 XOR";
"2 1 28071 28008 723 XOR";
"2 1 723 16983 27883 XOR";
"2 1 28135 28008 14847 XOR";
"2 1 16982 28008 14846 XOR";
"2 1 14847 14846 14845 AND";
"2 1 14845 28008 28009 XOR";
"2 1 28072 28009 722 XOR";
"2 1 722 16984 27884 XOR";
"2 1 28136 28009 14844 XOR";
"2 1 16983 28009 14843 XOR";
"2 1 14844 14843 14842 AND";
"2 1 14842 28009 28010 XOR";
"2 1 28073 28010 721 XOR";
"2 1 721 16985 27885 XOR";
"2 1 28137 28010 14841 XOR";
"2 1 16984 28010 14840 XOR";
"2 1 14841 14840 14839 AND";
"2 1 14839 28010 28011 XOR";
"2 1 28074 28011 720 XOR";
"2 1 720 16986 27886 XOR";
"2 1 28138 28011 14838 XOR";
"2 1 16985 28011 14837 XOR";
"2 1 14838 14837 14836 AND";
"2 1 14836 28011 28012 XOR";
"2 1 28075 28012 719 XOR";
"2 1 719 16987 27887 XOR";
"2 1 28139 28012 14835 XOR";
"2 1 16986 28012 14834 XOR";
"2 1 14835 14834 14833 AND";
"2 1 14833 28012 28013 XOR";
"2 1 28076 28013 718 XOR";
"2 1 718 16988 27888 XOR";
"2 1 28140 28013 14832 XOR";
"2 1 16987 28013 14831 XOR";
"2 1 14832 14831 14830 AND";
"2 1 14830 28013 28014 XOR";
"2 1 28077 28014 717 XOR";
"2 1 717 16989 27889 XOR";
"2 1 28141 28014 14829 XOR";
"2 1 16988 28014 14828 XOR";
"2 1 14829 14828 14827 AND";
"2 1 14827 28014 28015 XOR";
"2 1 28078 28015 716 XOR";
"2 1 716 16990 27890 XOR";
"2 1 28142 28015 14826 XOR";
"2 1 16989 28015 14825 XOR";
"2 1 14826 14825 14824 AND";
"2 1 14824 28015 28016 XOR";
"2 1 28079 28016 715 XOR";
"2 1 715 16991 27891 XOR";
"2 1 28143 28016 14823 XOR";
"2 1 16990 28016 14822 XOR";
"2 1 14823 14822 14821 AND";
"2 1 14821 28016 28017 XOR";
"2 1 28080 28017 714 XOR";
"2 1 714 16992 27892 XOR";
"2 1 28144 28017 14820 XOR";
"2 1 16991 28017 14819 XOR";
"2 1 14820 14819 14818 AND";
"2 1 14818 28017 28018 XOR";
"2 1 28081 28018 713 XOR";
"2 1 713 16993 27893 XOR";
"2 1 28145 28018 14817 XOR";
"2 1 16992 28018 14816 XOR";
"2 1 14817 14816 14815 AND";
"2 1 14815 28018 28019 XOR";
"2 1 28082 28019 712 XOR";
"2 1 712 16994 27894 XOR";
"2 1 28146 28019 14814 XOR";
"2 1 16993 28019 14813 XOR";
"2 1 14814 14813 14812 AND";
"2 1 14812 28019 28020 XOR";
"2 1 28083 28020 711 XOR";
"2 1 711 16995 27895 XOR";
"2 1 28147 28020 14811 XOR";
"2 1 16994 28020 14810 XOR";
"2 1 14811 14810 14809 AND";
"2 1 14809 28020 28021 XOR";
"2 1 28084 28021 710 XOR";
"2 1 710 16996 27896 XOR";
"2 1 28148 28021 14808 XOR";
"2 1 16995 28021 14807 XOR";
"2 1 14808 14807 14806 AND";
"2 1 14806 28021 28022 XOR";
"2 1 28085 28022 709 XOR";
"2 1 709 16997 27897 XOR";
"2 1 28149 28022 14805 XOR";
"2 1 16996 28022 14804 XOR";
"2 1 14805 14804 14803 AND";
"2 1 14803 28022 28023 XOR";
"2 1 28086 28023 708 XOR";
"2 1 708 16998 27898 XOR";
"2 1 28150 28023 14802 XOR";
"2 1 16997 28023 14801 XOR";
"2 1 14802 14801 14800 AND";
"2 1 14800 28023 28024 XOR";
"2 1 28087 28024 707 XOR";
"2 1 707 16999 27899 XOR";
"2 1 28151 28024 14799 XOR";
"2 1 16998 28024 14798 XOR";
"2 1 14799 14798 14797 AND";
"2 1 14797 28024 28025 XOR";
"2 1 28088 28025 706 XOR";
"2 1 706 17000 27900 XOR";
"2 1 28152 28025 14796 XOR";
"2 1 16999 28025 14795 XOR";
"2 1 14796 14795 14794 AND";
"2 1 14794 28025 28026 XOR";
"2 1 28089 28026 705 XOR";
"2 1 705 17001 27901 XOR";
"2 1 28153 28026 14793 XOR";
"2 1 17000 28026 14792 XOR";
"2 1 14793 14792 14791 AND";
"2 1 14791 28026 28027 XOR";
"2 1 28090 28027 704 XOR";
"2 1 704 17002 27902 XOR";
"2 1 28154 28027 14790 XOR";
"2 1 17001 28027 14789 XOR";
"2 1 14790 14789 14788 AND";
"2 1 14788 28027 28028 XOR";
"2 1 28091 28028 703 XOR";
"2 1 703 17003 27903 XOR";
"2 1 28155 28028 14787 XOR";
"2 1 17002 28028 14786 XOR";
"2 1 14787 14786 14785 AND";
"2 1 14785 28028 28029 XOR";
"2 1 28092 28029 702 XOR";
"2 1 702 17004 27904 XOR";
"2 1 28156 28029 14784 XOR";
"2 1 17003 28029 14783 XOR";
"2 1 14784 14783 14782 AND";
"2 1 14782 28029 28030 XOR";
"2 1 28093 28030 701 XOR";
"2 1 701 17005 27905 XOR";
"2 1 28157 28030 14781 XOR";
"2 1 17004 28030 14780 XOR";
"2 1 14781 14780 14779 AND";
"2 1 14779 28030 28031 XOR";
"2 1 28094 28031 700 XOR";
"2 1 700 17006 27906 XOR";
"2 1 28158 28031 14778 XOR";
"2 1 17005 28031 14777 XOR";
"2 1 14778 14777 14776 AND";
"2 1 14776 28031 28032 XOR";
"2 1 28095 28032 699 XOR";
"2 1 699 17007 27907 XOR";
"2 1 28159 28032 14775 XOR";
"2 1 17006 28032 14774 XOR";
"2 1 14775 14774 14773 AND";
"2 1 14773 28032 28033 XOR";
"2 1 28096 28033 698 XOR";
"2 1 698 17008 27908 XOR";
"2 1 28160 28033 14772 XOR";
"2 1 17007 28033 14771 XOR";
"2 1 14772 14771 14770 AND";
"2 1 14770 28033 28034 XOR";
"2 1 28097 28034 697 XOR";
"2 1 697 17009 27909 XOR";
"2 1 28161 28034 14769 XOR";
"2 1 17008 28034 14768 XOR";
"2 1 14769 14768 14767 AND";
"2 1 14767 28034 28035 XOR";
"2 1 28098 28035 138 XOR";
"1 1 138 16684 INV";
"2 1 16873 16684 27910 XOR";
"2 1 759 16684 27911 XOR";
"2 1 758 16684 27912 XOR";
"2 1 757 16684 27913 XOR";
"2 1 756 16684 27914 XOR";
"2 1 755 16684 27915 XOR";
"2 1 754 16684 27916 XOR";
"2 1 753 16684 27917 XOR";
"2 1 752 16684 27918 XOR";
"2 1 751 16684 27919 XOR";
"2 1 750 16684 27920 XOR";
"2 1 749 16684 27921 XOR";
"2 1 748 16684 27922 XOR";
"2 1 747 16684 27923 XOR";
"2 1 746 16684 27924 XOR";
"2 1 745 16684 27925 XOR";
"2 1 744 16684 27926 XOR";
"2 1 743 16684 27927 XOR";
"2 1 742 16684 27928 XOR";
"2 1 741 16684 27929 XOR";
"2 1 740 16684 27930 XOR";
"2 1 739 16684 27931 XOR";
"2 1 738 16684 27932 XOR";
"2 1 737 16684 27933 XOR";
"2 1 736 16684 27934 XOR";
"2 1 735 16684 27935 XOR";
"2 1 734 16684 27936 XOR";
"2 1 733 16684 27937 XOR";
"2 1 732 16684 27938 XOR";
"2 1 731 16684 27939 XOR";
"2 1 730 16684 27940 XOR";
"2 1 729 16684 27941 XOR";
"2 1 728 16684 27942 XOR";
"2 1 727 16684 27943 XOR";
"2 1 726 16684 27944 XOR";
"2 1 725 16684 27945 XOR";
"2 1 724 16684 27946 XOR";
"2 1 723 16684 27947 XOR";
"2 1 722 16684 27948 XOR";
"2 1 721 16684 27949 XOR";
"2 1 720 16684 27950 XOR";
"2 1 719 16684 27951 XOR";
"2 1 718 16684 27952 XOR";
"2 1 717 16684 27953 XOR";
"2 1 716 16684 27954 XOR";
"2 1 715 16684 27955 XOR";
"2 1 714 16684 27956 XOR";
"2 1 713 16684 27957 XOR";
"2 1 712 16684 27958 XOR";
"2 1 711 16684 27959 XOR";
"2 1 710 16684 27960 XOR";
"2 1 709 16684 27961 XOR";
"2 1 708 16684 27962 XOR";
"2 1 707 16684 27963 XOR";
"2 1 706 16684 27964 XOR";
"2 1 705 16684 27965 XOR";
"2 1 704 16684 27966 XOR";
"2 1 703 16684 27967 XOR";
"2 1 702 16684 27968 XOR";
"2 1 701 16684 27969 XOR";
"2 1 700 16684 27970 XOR";
"2 1 699 16684 27971 XOR";
"2 1 698 16684 27972 XOR";
"2 1 27910 16946 27784 AND";
"2 1 27847 27784 821 XOR";
"2 1 821 16948 27659 XOR";
"2 1 27911 27784 14766 XOR";
"2 1 16947 27784 14765 XOR";
"2 1 14766 14765 14764 AND";
"2 1 14764 27784 27785 XOR";
"2 1 27848 27785 820 XOR";
"2 1 820 16949 27660 XOR";
"2 1 27912 27785 14763 XOR";
"2 1 16948 27785 14762 XOR";
"2 1 14763 14762 14761 AND";
"2 1 14761 27785 27786 XOR";
"2 1 27849 27786 819 XOR";
"2 1 819 16950 27661 XOR";
"2 1 27913 27786 14760 XOR";
"2 1 16949 27786 14759 XOR";
"2 1 14760 14759 14758 AND";
"2 1 14758 27786 27787 XOR";
"2 1 27850 27787 818 XOR";
"2 1 818 16951 27662 XOR";
"2 1 27914 27787 14757 XOR";
"2 1 16950 27787 14756 XOR";
"2 1 14757 14756 14755 AND";
"2 1 14755 27787 27788 XOR";
"2 1 27851 27788 817 XOR";
"2 1 817 16952 27663 XOR";
"2 1 27915 27788 14754 XOR";
"2 1 16951 27788 14753 XOR";
"2 1 14754 14753 14752 AND";
"2 1 14752 27788 27789 XOR";
"2 1 27852 27789 816 XOR";
"2 1 816 16953 27664 XOR";
"2 1 27916 27789 14751 XOR";
"2 1 16952 27789 14750 XOR";
"2 1 14751 14750 14749 AND";
"2 1 14749 27789 27790 XOR";
"2 1 27853 27790 815 XOR";
"2 1 815 16954 27665 XOR";
"2 1 27917 27790 14748 XOR";
"2 1 16953 27790 14747 XOR";
"2 1 14748 14747 14746 AND";
"2 1 14746 27790 27791 XOR";
"2 1 27854 27791 814 XOR";
"2 1 814 16955 27666 XOR";
"2 1 27918 27791 14745 XOR";
"2 1 16954 27791 14744 XOR";
"2 1 14745 14744 14743 AND";
"2 1 14743 27791 27792 XOR";
"2 1 27855 27792 813 XOR";
"2 1 813 16956 27667 XOR";
"2 1 27919 27792 14742 XOR";
"2 1 16955 27792 14741 XOR";
"2 1 14742 14741 14740 AND";
"2 1 14740 27792 27793 XOR";
"2 1 27856 27793 812 XOR";
"2 1 812 16957 27668 XOR";
"2 1 27920 27793 14739 XOR";
"2 1 16956 27793 14738 XOR";
"2 1 14739 14738 14737 AND";
"2 1 14737 27793 27794 XOR";
"2 1 27857 27794 811 XOR";
"2 1 811 16958 27669 XOR";
"2 1 27921 27794 14736 XOR";
"2 1 16957 27794 14735 XOR";
"2 1 14736 14735 14734 AND";
"2 1 14734 27794 27795 XOR";
"2 1 27858 27795 810 XOR";
"2 1 810 16959 27670 XOR";
"2 1 27922 27795 14733 XOR";
"2 1 16958 27795 14732 XOR";
"2 1 14733 14732 14731 AND";
"2 1 14731 27795 27796 XOR";
"2 1 27859 27796 809 XOR";
"2 1 809 16960 27671 XOR";
"2 1 27923 27796 14730 XOR";
"2 1 16959 27796 14729 XOR";
"2 1 14730 14729 14728 AND";
"2 1 14728 27796 27797 XOR";
"2 1 27860 27797 808 XOR";
"2 1 808 16961 27672 XOR";
"2 1 27924 27797 14727 XOR";
"2 1 16960 27797 14726 XOR";
"2 1 14727 14726 14725 AND";
"2 1 14725 27797 27798 XOR";
"2 1 27861 27798 807 XOR";
"2 1 807 16962 27673 XOR";
"2 1 27925 27798 14724 XOR";
"2 1 16961 27798 14723 XOR";
"2 1 14724 14723 14722 AND";
"2 1 14722 27798 27799 XOR";
"2 1 27862 27799 806 XOR";
"2 1 806 16963 27674 XOR";
"2 1 27926 27799 14721 XOR";
"2 1 16962 27799 14720 XOR";
"2 1 14721 14720 14719 AND";
"2 1 14719 27799 27800 XOR";
"2 1 27863 27800 805 XOR";
"2 1 805 16964 27675 XOR";
"2 1 27927 27800 14718 XOR";
"2 1 16963 27800 14717 XOR";
"2 1 14718 14717 14716 AND";
"2 1 14716 27800 27801 XOR";
"2 1 27864 27801 804 XOR";
"2 1 804 16965 27676 XOR";
"2 1 27928 27801 14715 XOR";
"2 1 16964 27801 14714 XOR";
"2 1 14715 14714 14713 AND";
"2 1 14713 27801 27802 XOR";
"2 1 27865 27802 803 XOR";
"2 1 803 16966 27677 XOR";
"2 1 27929 27802 14712 XOR";
"2 1 16965 27802 14711 XOR";
"2 1 14712 14711 14710 AND";
"2 1 14710 27802 27803 XOR";
"2 1 27866 27803 802 XOR";
"2 1 802 16967 27678 XOR";
"2 1 27930 27803 14709 XOR";
"2 1 16966 27803 14708 XOR";
"2 1 14709 14708 14707 AND";
"2 1 14707 27803 27804 XOR";
"2 1 27867 27804 801 XOR";
"2 1 801 16968 27679 XOR";
"2 1 27931 27804 14706 XOR";
"2 1 16967 27804 14705 XOR";
"2 1 14706 14705 14704 AND";
"2 1 14704 27804 27805 XOR";
"2 1 27868 27805 800 XOR";
"2 1 800 16969 27680 XOR";
"2 1 27932 27805 14703 XOR";
"2 1 16968 27805 14702 XOR";
"2 1 14703 14702 14701 AND";
"2 1 14701 27805 27806 XOR";
"2 1 27869 27806 799 XOR";
"2 1 799 16970 27681 XOR";
"2 1 27933 27806 14700 XOR";
"2 1 16969 27806 14699 XOR";
"2 1 14700 14699 14698 AND";
"2 1 14698 27806 27807 XOR";
"2 1 27870 27807 798 XOR";
"2 1 798 16971 27682 XOR";
"2 1 27934 27807 14697 XOR";
"2 1 16970 27807 14696 XOR";
"2 1 14697 14696 14695 AND";
"2 1 14695 27807 27808 XOR";
"2 1 27871 27808 797 XOR";
"2 1 797 16972 27683 XOR";
"2 1 27935 27808 14694 XOR";
"2 1 16971 27808 14693 XOR";
"2 1 14694 14693 14692 AND";
"2 1 14692 27808 27809 XOR";
"2 1 27872 27809 796 XOR";
"2 1 796 16973 27684 XOR";
"2 1 27936 27809 14691 XOR";
"2 1 16972 27809 14690 XOR";
"2 1 14691 14690 14689 AND";
"2 1 14689 27809 27810 XOR";
"2 1 27873 27810 795 XOR";
"2 1 795 16974 27685 XOR";
"2 1 27937 27810 14688 XOR";
"2 1 16973 27810 14687 XOR";
"2 1 14688 14687 14686 AND";
"2 1 14686 27810 27811 XOR";
"2 1 27874 27811 794 XOR";
"2 1 794 16975 27686 XOR";
"2 1 27938 27811 14685 XOR";
"2 1 16974 27811 14684 XOR";
"2 1 14685 14684 14683 AND";
"2 1 14683 27811 27812 XOR";
"2 1 27875 27812 793 XOR";
"2 1 793 16976 27687 XOR";
"2 1 27939 27812 14682 XOR";
"2 1 16975 27812 14681 XOR";
"2 1 14682 14681 14680 AND";
"2 1 14680 27812 27813 XOR";
"2 1 27876 27813 792 XOR";
"2 1 792 16977 27688 XOR";
"2 1 27940 27813 14679 XOR";
"2 1 16976 27813 14678 XOR";
"2 1 14679 14678 14677 AND";
"2 1 14677 27813 27814 XOR";
"2 1 27877 27814 791 XOR";
"2 1 791 16978 27689 XOR";
"2 1 27941 27814 14676 XOR";
"2 1 16977 27814 14675 XOR";
"2 1 14676 14675 14674 AND";
"2 1 14674 27814 27815 XOR";
"2 1 27878 27815 790 XOR";
"2 1 790 16979 27690 XOR";
"2 1 27942 27815 14673 XOR";
"2 1 16978 27815 14672 XOR";
"2 1 14673 14672 14671 AND";
"2 1 14671 27815 27816 XOR";
"2 1 27879 27816 789 XOR";
"2 1 789 16980 27691 XOR";
"2 1 27943 27816 14670 XOR";
"2 1 16979 27816 14669 XOR";
"2 1 14670 14669 14668 AND";
"2 1 14668 27816 27817 XOR";
"2 1 27880 27817 788 XOR";
"2 1 788 16981 27692 XOR";
"2 1 27944 27817 14667 XOR";
"2 1 16980 27817 14666 XOR";
"2 1 14667 14666 14665 AND";
"2 1 14665 27817 27818 XOR";
"2 1 27881 27818 787 XOR";
"2 1 787 16982 27693 XOR";
"2 1 27945 27818 14664 XOR";
"2 1 16981 27818 14663 XOR";
"2 1 14664 14663 14662 AND";
"2 1 14662 27818 27819 XOR";
"2 1 27882 27819 786 XOR";
"2 1 786 16983 27694 XOR";
"2 1 27946 27819 14661 XOR";
"2 1 16982 27819 14660 XOR";
"2 1 14661 14660 14659 AND";
"2 1 14659 27819 27820 XOR";
"2 1 27883 27820 785 XOR";
"2 1 785 16984 27695 XOR";
"2 1 27947 27820 14658 XOR";
"2 1 16983 27820 14657 XOR";
"2 1 14658 14657 14656 AND";
"2 1 14656 27820 27821 XOR";
"2 1 27884 27821 784 XOR";
"2 1 784 16985 27696 XOR";
"2 1 27948 27821 14655 XOR";
"2 1 16984 27821 14654 XOR";
"2 1 14655 14654 14653 AND";
"2 1 14653 27821 27822 XOR";
"2 1 27885 27822 783 XOR";
"2 1 783 16986 27697 XOR";
"2 1 27949 27822 14652 XOR";
"2 1 16985 27822 14651 XOR";
"2 1 14652 14651 14650 AND";
"2 1 14650 27822 27823 XOR";
"2 1 27886 27823 782 XOR";
"2 1 782 16987 27698 XOR";
"2 1 27950 27823 14649 XOR";
"2 1 16986 27823 14648 XOR";
"2 1 14649 14648 14647 AND";
"2 1 14647 27823 27824 XOR";
"2 1 27887 27824 781 XOR";
"2 1 781 16988 27699 XOR";
"2 1 27951 27824 14646 XOR";
"2 1 16987 27824 14645 XOR";
"2 1 14646 14645 14644 AND";
"2 1 14644 27824 27825 XOR";
"2 1 27888 27825 780 XOR";
"2 1 780 16989 27700 XOR";
"2 1 27952 27825 14643 XOR";
"2 1 16988 27825 14642 XOR";
"2 1 14643 14642 14641 AND";
"2 1 14641 27825 27826 XOR";
"2 1 27889 27826 779 XOR";
"2 1 779 16990 27701 XOR";
"2 1 27953 27826 14640 XOR";
"2 1 16989 27826 14639 XOR";
"2 1 14640 14639 14638 AND";
"2 1 14638 27826 27827 XOR";
"2 1 27890 27827 778 XOR";
"2 1 778 16991 27702 XOR";
"2 1 27954 27827 14637 XOR";
"2 1 16990 27827 14636 XOR";
"2 1 14637 14636 14635 AND";
"2 1 14635 27827 27828 XOR";
"2 1 27891 27828 777 XOR";
"2 1 777 16992 27703 XOR";
"2 1 27955 27828 14634 XOR";
"2 1 16991 27828 14633 XOR";
"2 1 14634 14633 14632 AND";
"2 1 14632 27828 27829 XOR";
"2 1 27892 27829 776 XOR";
"2 1 776 16993 27704 XOR";
"2 1 27956 27829 14631 XOR";
"2 1 16992 27829 14630 XOR";
"2 1 14631 14630 14629 AND";
"2 1 14629 27829 27830 XOR";
"2 1 27893 27830 775 XOR";
"2 1 775 16994 27705 XOR";
"2 1 27957 27830 14628 XOR";
"2 1 16993 27830 14627 XOR";
"2 1 14628 14627 14626 AND";
"2 1 14626 27830 27831 XOR";
"2 1 27894 27831 774 XOR";
"2 1 774 16995 27706 XOR";
"2 1 27958 27831 14625 XOR";
"2 1 16994 27831 14624 XOR";
"2 1 14625 14624 14623 AND";
"2 1 14623 27831 27832 XOR";
"2 1 27895 27832 773 XOR";
"2 1 773 16996 27707 XOR";
"2 1 27959 27832 14622 XOR";
"2 1 16995 27832 14621 XOR";
"2 1 14622 14621 14620 AND";
"2 1 14620 27832 27833 XOR";
"2 1 27896 27833 772 XOR";
"2 1 772 16997 27708 XOR";
"2 1 27960 27833 14619 XOR";
"2 1 16996 27833 14618 XOR";
"2 1 14619 14618 14617 AND";
"2 1 14617 27833 27834 XOR";
"2 1 27897 27834 771 XOR";
"2 1 771 16998 27709 XOR";
"2 1 27961 27834 14616 XOR";
"2 1 16997 27834 14615 XOR";
"2 1 14616 14615 14614 AND";
"2 1 14614 27834 27835 XOR";
"2 1 27898 27835 770 XOR";
"2 1 770 16999 27710 XOR";
"2 1 27962 27835 14613 XOR";
"2 1 16998 27835 14612 XOR";
"2 1 14613 14612 14611 AND";
"2 1 14611 27835 27836 XOR";
"2 1 27899 27836 769 XOR";
"2 1 769 17000 27711 XOR";
"2 1 27963 27836 14610 XOR";
"2 1 16999 27836 14609 XOR";
"2 1 14610 14609 14608 AND";
"2 1 14608 27836 27837 XOR";
"2 1 27900 27837 768 XOR";
"2 1 768 17001 27712 XOR";
"2 1 27964 27837 14607 XOR";
"2 1 17000 27837 14606 XOR";
"2 1 14607 14606 14605 AND";
"2 1 14605 27837 27838 XOR";
"2 1 27901 27838 767 XOR";
"2 1 767 17002 27713 XOR";
"2 1 27965 27838 14604 XOR";
"2 1 17001 27838 14603 XOR";
"2 1 14604 14603 14602 AND";
"2 1 14602 27838 27839 XOR";
"2 1 27902 27839 766 XOR";
"2 1 766 17003 27714 XOR";
"2 1 27966 27839 14601 XOR";
"2 1 17002 27839 14600 XOR";
"2 1 14601 14600 14599 AND";
"2 1 14599 27839 27840 XOR";
"2 1 27903 27840 765 XOR";
"2 1 765 17004 27715 XOR";
"2 1 27967 27840 14598 XOR";
"2 1 17003 27840 14597 XOR";
"2 1 14598 14597 14596 AND";
"2 1 14596 27840 27841 XOR";
"2 1 27904 27841 764 XOR";
"2 1 764 17005 27716 XOR";
"2 1 27968 27841 14595 XOR";
"2 1 17004 27841 14594 XOR";
"2 1 14595 14594 14593 AND";
"2 1 14593 27841 27842 XOR";
"2 1 27905 27842 763 XOR";
"2 1 763 17006 27717 XOR";
"2 1 27969 27842 14592 XOR";
"2 1 17005 27842 14591 XOR";
"2 1 14592 14591 14590 AND";
"2 1 14590 27842 27843 XOR";
"2 1 27906 27843 762 XOR";
"2 1 762 17007 27718 XOR";
"2 1 27970 27843 14589 XOR";
"2 1 17006 27843 14588 XOR";
"2 1 14589 14588 14587 AND";
"2 1 14587 27843 27844 XOR";
"2 1 27907 27844 761 XOR";
"2 1 761 17008 27719 XOR";
"2 1 27971 27844 14586 XOR";
"2 1 17007 27844 14585 XOR";
"2 1 14586 14585 14584 AND";
"2 1 14584 27844 27845 XOR";
"2 1 27908 27845 760 XOR";
"2 1 760 17009 27720 XOR";
"2 1 27972 27845 14583 XOR";
"2 1 17008 27845 14582 XOR";
"2 1 14583 14582 14581 AND";
"2 1 14581 27845 27846 XOR";
"2 1 27909 27846 139 XOR";
"2 1 16684 4535 17568 AND";
"1 1 139 16683 INV";
"2 1 16872 16683 27721 XOR";
"2 1 822 16683 27722 XOR";
"2 1 821 16683 27723 XOR";
"2 1 820 16683 27724 XOR";
"2 1 819 16683 27725 XOR";
"2 1 818 16683 27726 XOR";
"2 1 817 16683 27727 XOR";
"2 1 816 16683 27728 XOR";
"2 1 815 16683 27729 XOR";
"2 1 814 16683 27730 XOR";
"2 1 813 16683 27731 XOR";
"2 1 812 16683 27732 XOR";
"2 1 811 16683 27733 XOR";
"2 1 810 16683 27734 XOR";
"2 1 809 16683 27735 XOR";
"2 1 808 16683 27736 XOR";
"2 1 807 16683 27737 XOR";
"2 1 806 16683 27738 XOR";
"2 1 805 16683 27739 XOR";
"2 1 804 16683 27740 XOR";
"2 1 803 16683 27741 XOR";
"2 1 802 16683 27742 XOR";
"2 1 801 16683 27743 XOR";
"2 1 800 16683 27744 XOR";
"2 1 799 16683 27745 XOR";
"2 1 798 16683 27746 XOR";
"2 1 797 16683 27747 XOR";
"2 1 796 16683 27748 XOR";
"2 1 795 16683 27749 XOR";
"2 1 794 16683 27750 XOR";
"2 1 793 16683 27751 XOR";
"2 1 792 16683 27752 XOR";
"2 1 791 16683 27753 XOR";
"2 1 790 16683 27754 XOR";
"2 1 789 16683 27755 XOR";
"2 1 788 16683 27756 XOR";
"2 1 787 16683 27757 XOR";
"2 1 786 16683 27758 XOR";
"2 1 785 16683 27759 XOR";
"2 1 784 16683 27760 XOR";
"2 1 783 16683 27761 XOR";
"2 1 782 16683 27762 XOR";
"2 1 781 16683 27763 XOR";
"2 1 780 16683 27764 XOR";
"2 1 779 16683 27765 XOR";
"2 1 778 16683 27766 XOR";
"2 1 777 16683 27767 XOR";
"2 1 776 16683 27768 XOR";
"2 1 775 16683 27769 XOR";
"2 1 774 16683 27770 XOR";
"2 1 773 16683 27771 XOR";
"2 1 772 16683 27772 XOR";
"2 1 771 16683 27773 XOR";
"2 1 770 16683 27774 XOR";
"2 1 769 16683 27775 XOR";
"2 1 768 16683 27776 XOR";
"2 1 767 16683 27777 XOR";
"2 1 766 16683 27778 XOR";
"2 1 765 16683 27779 XOR";
"2 1 764 16683 27780 XOR";
"2 1 763 16683 27781 XOR";
"2 1 762 16683 27782 XOR";
"2 1 761 16683 27783 XOR";
"2 1 27721 16946 27595 AND";
"2 1 27658 27595 884 XOR";
"2 1 884 16948 27470 XOR";
"2 1 27722 27595 14580 XOR";
"2 1 16947 27595 14579 XOR";
"2 1 14580 14579 14578 AND";
"2 1 14578 27595 27596 XOR";
"2 1 27659 27596 883 XOR";
"2 1 883 16949 27471 XOR";
"2 1 27723 27596 14577 XOR";
"2 1 16948 27596 14576 XOR";
"2 1 14577 14576 14575 AND";
"2 1 14575 27596 27597 XOR";
"2 1 27660 27597 882 XOR";
"2 1 882 16950 27472 XOR";
"2 1 27724 27597 14574 XOR";
"2 1 16949 27597 14573 XOR";
"2 1 14574 14573 14572 AND";
"2 1 14572 27597 27598 XOR";
"2 1 27661 27598 881 XOR";
"2 1 881 16951 27473 XOR";
"2 1 27725 27598 14571 XOR";
"2 1 16950 27598 14570 XOR";
"2 1 14571 14570 14569 AND";
"2 1 14569 27598 27599 XOR";
"2 1 27662 27599 880 XOR";
"2 1 880 16952 27474 XOR";
"2 1 27726 27599 14568 XOR";
"2 1 16951 27599 14567 XOR";
"2 1 14568 14567 14566 AND";
"2 1 14566 27599 27600 XOR";
"2 1 27663 27600 879 XOR";
"2 1 879 16953 27475 XOR";
"2 1 27727 27600 14565 XOR";
"2 1 16952 27600 14564 XOR";
"2 1 14565 14564 14563 AND";
"2 1 14563 27600 27601 XOR";
"2 1 27664 27601 878 XOR";
"2 1 878 16954 27476 XOR";
"2 1 27728 27601 14562 XOR";
"2 1 16953 27601 14561 XOR";
"2 1 14562 14561 14560 AND";
"2 1 14560 27601 27602 XOR";
"2 1 27665 27602 877 XOR";
"2 1 877 16955 27477 XOR";
"2 1 27729 27602 14559 XOR";
"2 1 16954 27602 14558 XOR";
"2 1 14559 14558 14557 AND";
"2 1 14557 27602 27603 XOR";
"2 1 27666 27603 876 XOR";
"2 1 876 16956 27478 XOR";
"2 1 27730 27603 14556 XOR";
"2 1 16955 27603 14555 XOR";
"2 1 14556 14555 14554 AND";
"2 1 14554 27603 27604 XOR";
"2 1 27667 27604 875 XOR";
"2 1 875 16957 27479 XOR";
"2 1 27731 27604 14553 XOR";
"2 1 16956 27604 14552 XOR";
"2 1 14553 14552 14551 AND";
"2 1 14551 27604 27605 XOR";
"2 1 27668 27605 874 XOR";
"2 1 874 16958 27480 XOR";
"2 1 27732 27605 14550 XOR";
"2 1 16957 27605 14549 XOR";
"2 1 14550 14549 14548 AND";
"2 1 14548 27605 27606 XOR";
"2 1 27669 27606 873 XOR";
"2 1 873 16959 27481 XOR";
"2 1 27733 27606 14547 XOR";
"2 1 16958 27606 14546 XOR";
"2 1 14547 14546 14545 AND";
"2 1 14545 27606 27607 XOR";
"2 1 27670 27607 872 XOR";
"2 1 872 16960 27482 XOR";
"2 1 27734 27607 14544 XOR";
"2 1 16959 27607 14543 XOR";
"2 1 14544 14543 14542 AND";
"2 1 14542 27607 27608 XOR";
"2 1 27671 27608 871 XOR";
"2 1 871 16961 27483 XOR";
"2 1 27735 27608 14541 XOR";
"2 1 16960 27608 14540 XOR";
"2 1 14541 14540 14539 AND";
"2 1 14539 27608 27609 XOR";
"2 1 27672 27609 870 XOR";
"2 1 870 16962 27484 XOR";
"2 1 27736 27609 14538 XOR";
"2 1 16961 27609 14537 XOR";
"2 1 14538 14537 14536 AND";
"2 1 14536 27609 27610 XOR";
"2 1 27673 27610 869 XOR";
"2 1 869 16963 27485 XOR";
"2 1 27737 27610 14535 XOR";
"2 1 16962 27610 14534 XOR";
"2 1 14535 14534 14533 AND";
"2 1 14533 27610 27611 XOR";
"2 1 27674 27611 868 XOR";
"2 1 868 16964 27486 XOR";
"2 1 27738 27611 14532 XOR";
"2 1 16963 27611 14531 XOR";
"2 1 14532 14531 14530 AND";
"2 1 14530 27611 27612 XOR";
"2 1 27675 27612 867 XOR";
"2 1 867 16965 27487 XOR";
"2 1 27739 27612 14529 XOR";
"2 1 16964 27612 14528 XOR";
"2 1 14529 14528 14527 AND";
"2 1 14527 27612 27613 XOR";
"2 1 27676 27613 866 XOR";
"2 1 866 16966 27488 XOR";
"2 1 27740 27613 14526 XOR";
"2 1 16965 27613 14525 XOR";
"2 1 14526 14525 14524 AND";
"2 1 14524 27613 27614 XOR";
"2 1 27677 27614 865 XOR";
"2 1 865 16967 27489 XOR";
"2 1 27741 27614 14523 XOR";
"2 1 16966 27614 14522 XOR";
"2 1 14523 14522 14521 AND";
"2 1 14521 27614 27615 XOR";
"2 1 27678 27615 864 XOR";
"2 1 864 16968 27490 XOR";
"2 1 27742 27615 14520 XOR";
"2 1 16967 27615 14519 XOR";
"2 1 14520 14519 14518 AND";
"2 1 14518 27615 27616 XOR";
"2 1 27679 27616 863 XOR";
"2 1 863 16969 27491 XOR";
"2 1 27743 27616 14517 XOR";
"2 1 16968 27616 14516 XOR";
"2 1 14517 14516 14515 AND";
"2 1 14515 27616 27617 XOR";
"2 1 27680 27617 862 XOR";
"2 1 862 16970 27492 XOR";
"2 1 27744 27617 14514 XOR";
"2 1 16969 27617 14513 XOR";
"2 1 14514 14513 14512 AND";
"2 1 14512 27617 27618 XOR";
"2 1 27681 27618 861 XOR";
"2 1 861 16971 27493 XOR";
"2 1 27745 27618 14511 XOR";
"2 1 16970 27618 14510 XOR";
"2 1 14511 14510 14509 AND";
"2 1 14509 27618 27619 XOR";
"2 1 27682 27619 860 XOR";
"2 1 860 16972 27494 XOR";
"2 1 27746 27619 14508 XOR";
"2 1 16971 27619 14507 XOR";
"2 1 14508 14507 14506 AND";
"2 1 14506 27619 27620 XOR";
"2 1 27683 27620 859 XOR";
"2 1 859 16973 27495 XOR";
"2 1 27747 27620 14505 XOR";
"2 1 16972 27620 14504 XOR";
"2 1 14505 14504 14503 AND";
"2 1 14503 27620 27621 XOR";
"2 1 27684 27621 858 XOR";
"2 1 858 16974 27496 XOR";
"2 1 27748 27621 14502 XOR";
"2 1 16973 27621 14501 XOR";
"2 1 14502 14501 14500 AND";
"2 1 14500 27621 27622 XOR";
"2 1 27685 27622 857 XOR";
"2 1 857 16975 27497 XOR";
"2 1 27749 27622 14499 XOR";
"2 1 16974 27622 14498 XOR";
"2 1 14499 14498 14497 AND";
"2 1 14497 27622 27623 XOR";
"2 1 27686 27623 856 XOR";
"2 1 856 16976 27498 XOR";
"2 1 27750 27623 14496 XOR";
"2 1 16975 27623 14495 XOR";
"2 1 14496 14495 14494 AND";
"2 1 14494 27623 27624 XOR";
"2 1 27687 27624 855 XOR";
"2 1 855 16977 27499 XOR";
"2 1 27751 27624 14493 XOR";
"2 1 16976 27624 14492 XOR";
"2 1 14493 14492 14491 AND";
"2 1 14491 27624 27625 XOR";
"2 1 27688 27625 854 XOR";
"2 1 854 16978 27500 XOR";
"2 1 27752 27625 14490 XOR";
"2 1 16977 27625 14489 XOR";
"2 1 14490 14489 14488 AND";
"2 1 14488 27625 27626 XOR";
"2 1 27689 27626 853 XOR";
"2 1 853 16979 27501 XOR";
"2 1 27753 27626 14487 XOR";
"2 1 16978 27626 14486 XOR";
"2 1 14487 14486 14485 AND";
"2 1 14485 27626 27627 XOR";
"2 1 27690 27627 852 XOR";
"2 1 852 16980 27502 XOR";
"2 1 27754 27627 14484 XOR";
"2 1 16979 27627 14483 XOR";
"2 1 14484 14483 14482 AND";
"2 1 14482 27627 27628 XOR";
"2 1 27691 27628 851 XOR";
"2 1 851 16981 27503 XOR";
"2 1 27755 27628 14481 XOR";
"2 1 16980 27628 14480 XOR";
"2 1 14481 14480 14479 AND";
"2 1 14479 27628 27629 XOR";
"2 1 27692 27629 850 XOR";
"2 1 850 16982 27504 XOR";
"2 1 27756 27629 14478 XOR";
"2 1 16981 27629 14477 XOR";
"2 1 14478 14477 14476 AND";
"2 1 14476 27629 27630 XOR";
"2 1 27693 27630 849 XOR";
"2 1 849 16983 27505 XOR";
"2 1 27757 27630 14475 XOR";
"2 1 16982 27630 14474 XOR";
"2 1 14475 14474 14473 AND";
"2 1 14473 27630 27631 XOR";
"2 1 27694 27631 848 XOR";
"2 1 848 16984 27506 XOR";
"2 1 27758 27631 14472 XOR";
"2 1 16983 27631 14471 XOR";
"2 1 14472 14471 14470 AND";
"2 1 14470 27631 27632 XOR";
"2 1 27695 27632 847 XOR";
"2 1 847 16985 27507 XOR";
"2 1 27759 27632 14469 XOR";
"2 1 16984 27632 14468 XOR";
"2 1 14469 14468 14467 AND";
"2 1 14467 27632 27633 XOR";
"2 1 27696 27633 846 XOR";
"2 1 846 16986 27508 XOR";
"2 1 27760 27633 14466 XOR";
"2 1 16985 27633 14465 XOR";
"2 1 14466 14465 14464 AND";
"2 1 14464 27633 27634 XOR";
"2 1 27697 27634 845 XOR";
"2 1 845 16987 27509 XOR";
"2 1 27761 27634 14463 XOR";
"2 1 16986 27634 14462 XOR";
"2 1 14463 14462 14461 AND";
"2 1 14461 27634 27635 XOR";
"2 1 27698 27635 844 XOR";
"2 1 844 16988 27510 XOR";
"2 1 27762 27635 14460 XOR";
"2 1 16987 27635 14459 XOR";
"2 1 14460 14459 14458 AND";
"2 1 14458 27635 27636 XOR";
"2 1 27699 27636 843 XOR";
"2 1 843 16989 27511 XOR";
"2 1 27763 27636 14457 XOR";
"2 1 16988 27636 14456 XOR";
"2 1 14457 14456 14455 AND";
"2 1 14455 27636 27637 XOR";
"2 1 27700 27637 842 XOR";
"2 1 842 16990 27512 XOR";
"2 1 27764 27637 14454 XOR";
"2 1 16989 27637 14453 XOR";
"2 1 14454 14453 14452 AND";
"2 1 14452 27637 27638 XOR";
"2 1 27701 27638 841 XOR";
"2 1 841 16991 27513 XOR";
"2 1 27765 27638 14451 XOR";
"2 1 16990 27638 14450 XOR";
"2 1 14451 14450 14449 AND";
"2 1 14449 27638 27639 XOR";
"2 1 27702 27639 840 XOR";
"2 1 840 16992 27514 XOR";
"2 1 27766 27639 14448 XOR";
"2 1 16991 27639 14447 XOR";
"2 1 14448 14447 14446 AND";
"2 1 14446 27639 27640 XOR";
"2 1 27703 27640 839 XOR";
"2 1 839 16993 27515 XOR";
"2 1 27767 27640 14445 XOR";
"2 1 16992 27640 14444 XOR";
"2 1 14445 14444 14443 AND";
"2 1 14443 27640 27641 XOR";
"2 1 27704 27641 838 XOR";
"2 1 838 16994 27516 XOR";
"2 1 27768 27641 14442 XOR";
"2 1 16993 27641 14441 XOR";
"2 1 14442 14441 14440 AND";
"2 1 14440 27641 27642 XOR";
"2 1 27705 27642 837 XOR";
"2 1 837 16995 27517 XOR";
"2 1 27769 27642 14439 XOR";
"2 1 16994 27642 14438 XOR";
"2 1 14439 14438 14437 AND";
"2 1 14437 27642 27643 XOR";
"2 1 27706 27643 836 XOR";
"2 1 836 16996 27518 XOR";
"2 1 27770 27643 14436 XOR";
"2 1 16995 27643 14435 XOR";
"2 1 14436 14435 14434 AND";
"2 1 14434 27643 27644 XOR";
"2 1 27707 27644 835 XOR";
"2 1 835 16997 27519 XOR";
"2 1 27771 27644 14433 XOR";
"2 1 16996 27644 14432 XOR";
"2 1 14433 14432 14431 AND";
"2 1 14431 27644 27645 XOR";
"2 1 27708 27645 834 XOR";
"2 1 834 16998 27520 XOR";
"2 1 27772 27645 14430 XOR";
"2 1 16997 27645 14429 XOR";
"2 1 14430 14429 14428 AND";
"2 1 14428 27645 27646 XOR";
"2 1 27709 27646 833 XOR";
"2 1 833 16999 27521 XOR";
"2 1 27773 27646 14427 XOR";
"2 1 16998 27646 14426 XOR";
"2 1 14427 14426 14425 AND";
"2 1 14425 27646 27647 XOR";
"2 1 27710 27647 832 XOR";
"2 1 832 17000 27522 XOR";
"2 1 27774 27647 14424 XOR";
"2 1 16999 27647 14423 XOR";
"2 1 14424 14423 14422 AND";
"2 1 14422 27647 27648 XOR";
"2 1 27711 27648 831 XOR";
"2 1 831 17001 27523 XOR";
"2 1 27775 27648 14421 XOR";
"2 1 17000 27648 14420 XOR";
"2 1 14421 14420 14419 AND";
"2 1 14419 27648 27649 XOR";
"2 1 27712 27649 830 XOR";
"2 1 830 17002 27524 XOR";
"2 1 27776 27649 14418 XOR";
"2 1 17001 27649 14417 XOR";
"2 1 14418 14417 14416 AND";
"2 1 14416 27649 27650 XOR";
"2 1 27713 27650 829 XOR";
"2 1 829 17003 27525 XOR";
"2 1 27777 27650 14415 XOR";
"2 1 17002 27650 14414 XOR";
"2 1 14415 14414 14413 AND";
"2 1 14413 27650 27651 XOR";
"2 1 27714 27651 828 XOR";
"2 1 828 17004 27526 XOR";
"2 1 27778 27651 14412 XOR";
"2 1 17003 27651 14411 XOR";
"2 1 14412 14411 14410 AND";
"2 1 14410 27651 27652 XOR";
"2 1 27715 27652 827 XOR";
"2 1 827 17005 27527 XOR";
"2 1 27779 27652 14409 XOR";
"2 1 17004 27652 14408 XOR";
"2 1 14409 14408 14407 AND";
"2 1 14407 27652 27653 XOR";
"2 1 27716 27653 826 XOR";
"2 1 826 17006 27528 XOR";
"2 1 27780 27653 14406 XOR";
"2 1 17005 27653 14405 XOR";
"2 1 14406 14405 14404 AND";
"2 1 14404 27653 27654 XOR";
"2 1 27717 27654 825 XOR";
"2 1 825 17007 27529 XOR";
"2 1 27781 27654 14403 XOR";
"2 1 17006 27654 14402 XOR";
"2 1 14403 14402 14401 AND";
"2 1 14401 27654 27655 XOR";
"2 1 27718 27655 824 XOR";
"2 1 824 17008 27530 XOR";
"2 1 27782 27655 14400 XOR";
"2 1 17007 27655 14399 XOR";
"2 1 14400 14399 14398 AND";
"2 1 14398 27655 27656 XOR";
"2 1 27719 27656 823 XOR";
"2 1 823 17009 27531 XOR";
"2 1 27783 27656 14397 XOR";
"2 1 17008 27656 14396 XOR";
"2 1 14397 14396 14395 AND";
"2 1 14395 27656 27657 XOR";
"2 1 27720 27657 140 XOR";
"1 1 140 16682 INV";
"2 1 16871 16682 27532 XOR";
"2 1 885 16682 27533 XOR";
"2 1 884 16682 27534 XOR";
"2 1 883 16682 27535 XOR";
"2 1 882 16682 27536 XOR";
"2 1 881 16682 27537 XOR";
"2 1 880 16682 27538 XOR";
"2 1 879 16682 27539 XOR";
"2 1 878 16682 27540 XOR";
"2 1 877 16682 27541 XOR";
"2 1 876 16682 27542 XOR";
"2 1 875 16682 27543 XOR";
"2 1 874 16682 27544 XOR";
"2 1 873 16682 27545 XOR";
"2 1 872 16682 27546 XOR";
"2 1 871 16682 27547 XOR";
"2 1 870 16682 27548 XOR";
"2 1 869 16682 27549 XOR";
"2 1 868 16682 27550 XOR";
"2 1 867 16682 27551 XOR";
"2 1 866 16682 27552 XOR";
"2 1 865 16682 27553 XOR";
"2 1 864 16682 27554 XOR";
"2 1 863 16682 27555 XOR";
"2 1 862 16682 27556 XOR";
"2 1 861 16682 27557 XOR";
"2 1 860 16682 27558 XOR";
"2 1 859 16682 27559 XOR";
"2 1 858 16682 27560 XOR";
"2 1 857 16682 27561 XOR";
"2 1 856 16682 27562 XOR";
"2 1 855 16682 27563 XOR";
"2 1 854 16682 27564 XOR";
"2 1 853 16682 27565 XOR";
"2 1 852 16682 27566 XOR";
"2 1 851 16682 27567 XOR";
"2 1 850 16682 27568 XOR";
"2 1 849 16682 27569 XOR";
"2 1 848 16682 27570 XOR";
"2 1 847 16682 27571 XOR";
"2 1 846 16682 27572 XOR";
"2 1 845 16682 27573 XOR";
"2 1 844 16682 27574 XOR";
"2 1 843 16682 27575 XOR";
"2 1 842 16682 27576 XOR";
"2 1 841 16682 27577 XOR";
"2 1 840 16682 27578 XOR";
"2 1 839 16682 27579 XOR";
"2 1 838 16682 27580 XOR";
"2 1 837 16682 27581 XOR";
"2 1 836 16682 27582 XOR";
"2 1 835 16682 27583 XOR";
"2 1 834 16682 27584 XOR";
"2 1 833 16682 27585 XOR";
"2 1 832 16682 27586 XOR";
"2 1 831 16682 27587 XOR";
"2 1 830 16682 27588 XOR";
"2 1 829 16682 27589 XOR";
"2 1 828 16682 27590 XOR";
"2 1 827 16682 27591 XOR";
"2 1 826 16682 27592 XOR";
"2 1 825 16682 27593 XOR";
"2 1 824 16682 27594 XOR";
"2 1 27532 16946 27406 AND";
"2 1 27469 27406 947 XOR";
"2 1 947 16948 27281 XOR";
"2 1 27533 27406 14394 XOR";
"2 1 16947 27406 14393 XOR";
"2 1 14394 14393 14392 AND";
"2 1 14392 27406 27407 XOR";
"2 1 27470 27407 946 XOR";
"2 1 946 16949 27282 XOR";
"2 1 27534 27407 14391 XOR";
"2 1 16948 27407 14390 XOR";
"2 1 14391 14390 14389 AND";
"2 1 14389 27407 27408 XOR";
"2 1 27471 27408 945 XOR";
"2 1 945 16950 27283 XOR";
"2 1 27535 27408 14388 XOR";
"2 1 16949 27408 14387 XOR";
"2 1 14388 14387 14386 AND";
"2 1 14386 27408 27409 XOR";
"2 1 27472 27409 944 XOR";
"2 1 944 16951 27284 XOR";
"2 1 27536 27409 14385 XOR";
"2 1 16950 27409 14384 XOR";
"2 1 14385 14384 14383 AND";
"2 1 14383 27409 27410 XOR";
"2 1 27473 27410 943 XOR";
"2 1 943 16952 27285 XOR";
"2 1 27537 27410 14382 XOR";
"2 1 16951 27410 14381 XOR";
"2 1 14382 14381 14380 AND";
"2 1 14380 27410 27411 XOR";
"2 1 27474 27411 942 XOR";
"2 1 942 16953 27286 XOR";
"2 1 27538 27411 14379 XOR";
"2 1 16952 27411 14378 XOR";
"2 1 14379 14378 14377 AND";
"2 1 14377 27411 27412 XOR";
"2 1 27475 27412 941 XOR";
"2 1 941 16954 27287 XOR";
"2 1 27539 27412 14376 XOR";
"2 1 16953 27412 14375 XOR";
"2 1 14376 14375 14374 AND";
"2 1 14374 27412 27413 XOR";
"2 1 27476 27413 940 XOR";
"2 1 940 16955 27288 XOR";
"2 1 27540 27413 14373 XOR";
"2 1 16954 27413 14372 XOR";
"2 1 14373 14372 14371 AND";
"2 1 14371 27413 27414 XOR";
"2 1 27477 27414 939 XOR";
"2 1 939 16956 27289 XOR";
"2 1 27541 27414 14370 XOR";
"2 1 16955 27414 14369 XOR";
"2 1 14370 14369 14368 AND";
"2 1 14368 27414 27415 XOR";
"2 1 27478 27415 938 XOR";
"2 1 938 16957 27290 XOR";
"2 1 27542 27415 14367 XOR";
"2 1 16956 27415 14366 XOR";
"2 1 14367 14366 14365 AND";
"2 1 14365 27415 27416 XOR";
"2 1 27479 27416 937 XOR";
"2 1 937 16958 27291 XOR";
"2 1 27543 27416 14364 XOR";
"2 1 16957 27416 14363 XOR";
"2 1 14364 14363 14362 AND";
"2 1 14362 27416 27417 XOR";
"2 1 27480 27417 936 XOR";
"2 1 936 16959 27292 XOR";
"2 1 27544 27417 14361 XOR";
"2 1 16958 27417 14360 XOR";
"2 1 14361 14360 14359 AND";
"2 1 14359 27417 27418 XOR";
"2 1 27481 27418 935 XOR";
"2 1 935 16960 27293 XOR";
"2 1 27545 27418 14358 XOR";
"2 1 16959 27418 14357 XOR";
"2 1 14358 14357 14356 AND";
"2 1 14356 27418 27419 XOR";
"2 1 27482 27419 934 XOR";
"2 1 934 16961 27294 XOR";
"2 1 27546 27419 14355 XOR";
"2 1 16960 27419 14354 XOR";
"2 1 14355 14354 14353 AND";
"2 1 14353 27419 27420 XOR";
"2 1 27483 27420 933 XOR";
"2 1 933 16962 27295 XOR";
"2 1 27547 27420 14352 XOR";
"2 1 16961 27420 14351 XOR";
"2 1 14352 14351 14350 AND";
"2 1 14350 27420 27421 XOR";
"2 1 27484 27421 932 XOR";
"2 1 932 16963 27296 XOR";
"2 1 27548 27421 14349 XOR";
"2 1 16962 27421 14348 XOR";
"2 1 14349 14348 14347 AND";
"2 1 14347 27421 27422 XOR";
"2 1 27485 27422 931 XOR";
"2 1 931 16964 27297 XOR";
"2 1 27549 27422 14346 XOR";
"2 1 16963 27422 14345 XOR";
"2 1 14346 14345 14344 AND";
"2 1 14344 27422 27423 XOR";
"2 1 27486 27423 930 XOR";
"2 1 930 16965 27298 XOR";
"2 1 27550 27423 14343 XOR";
"2 1 16964 27423 14342 XOR";
"2 1 14343 14342 14341 AND";
"2 1 14341 27423 27424 XOR";
"2 1 27487 27424 929 XOR";
"2 1 929 16966 27299 XOR";
"2 1 27551 27424 14340 XOR";
"2 1 16965 27424 14339 XOR";
"2 1 14340 14339 14338 AND";
"2 1 14338 27424 27425 XOR";
"2 1 27488 27425 928 XOR";
"2 1 928 16967 27300 XOR";
"2 1 27552 27425 14337 XOR";
"2 1 16966 27425 14336 XOR";
"2 1 14337 14336 14335 AND";
"2 1 14335 27425 27426 XOR";
"2 1 27489 27426 927 XOR";
"2 1 927 16968 27301 XOR";
"2 1 27553 27426 14334 XOR";
"2 1 16967 27426 14333 XOR";
"2 1 14334 14333 14332 AND";
"2 1 14332 27426 27427 XOR";
"2 1 27490 27427 926 XOR";
"2 1 926 16969 27302 XOR";
"2 1 27554 27427 14331 XOR";
"2 1 16968 27427 14330 XOR";
"2 1 14331 14330 14329 AND";
"2 1 14329 27427 27428 XOR";
"2 1 27491 27428 925 XOR";
"2 1 925 16970 27303 XOR";
"2 1 27555 27428 14328 XOR";
"2 1 16969 27428 14327 XOR";
"2 1 14328 14327 14326 AND";
"2 1 14326 27428 27429 XOR";
"2 1 27492 27429 924 XOR";
"2 1 924 16971 27304 XOR";
"2 1 27556 27429 14325 XOR";
"2 1 16970 27429 14324 XOR";
"2 1 14325 14324 14323 AND";
"2 1 14323 27429 27430 XOR";
"2 1 27493 27430 923 XOR";
"2 1 923 16972 27305 XOR";
"2 1 27557 27430 14322 XOR";
"2 1 16971 27430 14321 XOR";
"2 1 14322 14321 14320 AND";
"2 1 14320 27430 27431 XOR";
"2 1 27494 27431 922 XOR";
"2 1 922 16973 27306 XOR";
"2 1 27558 27431 14319 XOR";
"2 1 16972 27431 14318 XOR";
"2 1 14319 14318 14317 AND";
"2 1 14317 27431 27432 XOR";
"2 1 27495 27432 921 XOR";
"2 1 921 16974 27307 XOR";
"2 1 27559 27432 14316 XOR";
"2 1 16973 27432 14315 XOR";
"2 1 14316 14315 14314 AND";
"2 1 14314 27432 27433 XOR";
"2 1 27496 27433 920 XOR";
"2 1 920 16975 27308 XOR";
"2 1 27560 27433 14313 XOR";
"2 1 16974 27433 14312 XOR";
"2 1 14313 14312 14311 AND";
"2 1 14311 27433 27434 XOR";
"2 1 27497 27434 919 XOR";
"2 1 919 16976 27309 XOR";
"2 1 27561 27434 14310 XOR";
"2 1 16975 27434 14309 XOR";
"2 1 14310 14309 14308 AND";
"2 1 14308 27434 27435 XOR";
"2 1 27498 27435 918 XOR";
"2 1 918 16977 27310 XOR";
"2 1 27562 27435 14307 XOR";
"2 1 16976 27435 14306 XOR";
"2 1 14307 14306 14305 AND";
"2 1 14305 27435 27436 XOR";
"2 1 27499 27436 917 XOR";
"2 1 917 16978 27311 XOR";
"2 1 27563 27436 14304 XOR";
"2 1 16977 27436 14303 XOR";
"2 1 14304 14303 14302 AND";
"2 1 14302 27436 27437 XOR";
"2 1 27500 27437 916 XOR";
"2 1 916 16979 27312 XOR";
"2 1 27564 27437 14301 XOR";
"2 1 16978 27437 14300 XOR";
"2 1 14301 14300 14299 AND";
"2 1 14299 27437 27438 XOR";
"2 1 27501 27438 915 XOR";
"2 1 915 16980 27313 XOR";
"2 1 27565 27438 14298 XOR";
"2 1 16979 27438 14297 XOR";
"2 1 14298 14297 14296 AND";
"2 1 14296 27438 27439 XOR";
"2 1 27502 27439 914 XOR";
"2 1 914 16981 27314 XOR";
"2 1 27566 27439 14295 XOR";
"2 1 16980 27439 14294 XOR";
"2 1 14295 14294 14293 AND";
"2 1 14293 27439 27440 XOR";
"2 1 27503 27440 913 XOR";
"2 1 913 16982 27315 XOR";
"2 1 27567 27440 14292 XOR";
"2 1 16981 27440 14291 XOR";
"2 1 14292 14291 14290 AND";
"2 1 14290 27440 27441 XOR";
"2 1 27504 27441 912 XOR";
"2 1 912 16983 27316 XOR";
"2 1 27568 27441 14289 XOR";
"2 1 16982 27441 14288 XOR";
"2 1 14289 14288 14287 AND";
"2 1 14287 27441 27442 XOR";
"2 1 27505 27442 911 XOR";
"2 1 911 16984 27317 XOR";
"2 1 27569 27442 14286 XOR";
"2 1 16983 27442 14285 XOR";
"2 1 14286 14285 14284 AND";
"2 1 14284 27442 27443 XOR";
"2 1 27506 27443 910 XOR";
"2 1 910 16985 27318 XOR";
"2 1 27570 27443 14283 XOR";
"2 1 16984 27443 14282 XOR";
"2 1 14283 14282 14281 AND";
"2 1 14281 27443 27444 XOR";
"2 1 27507 27444 909 XOR";
"2 1 909 16986 27319 XOR";
"2 1 27571 27444 14280 XOR";
"2 1 16985 27444 14279 XOR";
"2 1 14280 14279 14278 AND";
"2 1 14278 27444 27445 XOR";
"2 1 27508 27445 908 XOR";
"2 1 908 16987 27320 XOR";
"2 1 27572 27445 14277 XOR";
"2 1 16986 27445 14276 XOR";
"2 1 14277 14276 14275 AND";
"2 1 14275 27445 27446 XOR";
"2 1 27509 27446 907 XOR";
"2 1 907 16988 27321 XOR";
"2 1 27573 27446 14274 XOR";
"2 1 16987 27446 14273 XOR";
"2 1 14274 14273 14272 AND";
"2 1 14272 27446 27447 XOR";
"2 1 27510 27447 906 XOR";
"2 1 906 16989 27322 XOR";
"2 1 27574 27447 14271 XOR";
"2 1 16988 27447 14270 XOR";
"2 1 14271 14270 14269 AND";
"2 1 14269 27447 27448 XOR";
"2 1 27511 27448 905 XOR";
"2 1 905 16990 27323 XOR";
"2 1 27575 27448 14268 XOR";
"2 1 16989 27448 14267 XOR";
"2 1 14268 14267 14266 AND";
"2 1 14266 27448 27449 XOR";
"2 1 27512 27449 904 XOR";
"2 1 904 16991 27324 XOR";
"2 1 27576 27449 14265 XOR";
"2 1 16990 27449 14264 XOR";
"2 1 14265 14264 14263 AND";
"2 1 14263 27449 27450 XOR";
"2 1 27513 27450 903 XOR";
"2 1 903 16992 27325 XOR";
"2 1 27577 27450 14262 XOR";
"2 1 16991 27450 14261 XOR";
"2 1 14262 14261 14260 AND";
"2 1 14260 27450 27451 XOR";
"2 1 27514 27451 902 XOR";
"2 1 902 16993 27326 XOR";
"2 1 27578 27451 14259 XOR";
"2 1 16992 27451 14258 XOR";
"2 1 14259 14258 14257 AND";
"2 1 14257 27451 27452 XOR";
"2 1 27515 27452 901 XOR";
"2 1 901 16994 27327 XOR";
"2 1 27579 27452 14256 XOR";
"2 1 16993 27452 14255 XOR";
"2 1 14256 14255 14254 AND";
"2 1 14254 27452 27453 XOR";
"2 1 27516 27453 900 XOR";
"2 1 900 16995 27328 XOR";
"2 1 27580 27453 14253 XOR";
"2 1 16994 27453 14252 XOR";
"2 1 14253 14252 14251 AND";
"2 1 14251 27453 27454 XOR";
"2 1 27517 27454 899 XOR";
"2 1 899 16996 27329 XOR";
"2 1 27581 27454 14250 XOR";
"2 1 16995 27454 14249 XOR";
"2 1 14250 14249 14248 AND";
"2 1 14248 27454 27455 XOR";
"2 1 27518 27455 898 XOR";
"2 1 898 16997 27330 XOR";
"2 1 27582 27455 14247 XOR";
"2 1 16996 27455 14246 XOR";
"2 1 14247 14246 14245 AND";
"2 1 14245 27455 27456 XOR";
"2 1 27519 27456 897 XOR";
"2 1 897 16998 27331 XOR";
"2 1 27583 27456 14244 XOR";
"2 1 16997 27456 14243 XOR";
"2 1 14244 14243 14242 AND";
"2 1 14242 27456 27457 XOR";
"2 1 27520 27457 896 XOR";
"2 1 896 16999 27332 XOR";
"2 1 27584 27457 14241 XOR";
"2 1 16998 27457 14240 XOR";
"2 1 14241 14240 14239 AND";
"2 1 14239 27457 27458 XOR";
"2 1 27521 27458 895 XOR";
"2 1 895 17000 27333 XOR";
"2 1 27585 27458 14238 XOR";
"2 1 16999 27458 14237 XOR";
"2 1 14238 14237 14236 AND";
"2 1 14236 27458 27459 XOR";
"2 1 27522 27459 894 XOR";
"2 1 894 17001 27334 XOR";
"2 1 27586 27459 14235 XOR";
"2 1 17000 27459 14234 XOR";
"2 1 14235 14234 14233 AND";
"2 1 14233 27459 27460 XOR";
"2 1 27523 27460 893 XOR";
"2 1 893 17002 27335 XOR";
"2 1 27587 27460 14232 XOR";
"2 1 17001 27460 14231 XOR";
"2 1 14232 14231 14230 AND";
"2 1 14230 27460 27461 XOR";
"2 1 27524 27461 892 XOR";
"2 1 892 17003 27336 XOR";
"2 1 27588 27461 14229 XOR";
"2 1 17002 27461 14228 XOR";
"2 1 14229 14228 14227 AND";
"2 1 14227 27461 27462 XOR";
"2 1 27525 27462 891 XOR";
"2 1 891 17004 27337 XOR";
"2 1 27589 27462 14226 XOR";
"2 1 17003 27462 14225 XOR";
"2 1 14226 14225 14224 AND";
"2 1 14224 27462 27463 XOR";
"2 1 27526 27463 890 XOR";
"2 1 890 17005 27338 XOR";
"2 1 27590 27463 14223 XOR";
"2 1 17004 27463 14222 XOR";
"2 1 14223 14222 14221 AND";
"2 1 14221 27463 27464 XOR";
"2 1 27527 27464 889 XOR";
"2 1 889 17006 27339 XOR";
"2 1 27591 27464 14220 XOR";
"2 1 17005 27464 14219 XOR";
"2 1 14220 14219 14218 AND";
"2 1 14218 27464 27465 XOR";
"2 1 27528 27465 888 XOR";
"2 1 888 17007 27340 XOR";
"2 1 27592 27465 14217 XOR";
"2 1 17006 27465 14216 XOR";
"2 1 14217 14216 14215 AND";
"2 1 14215 27465 27466 XOR";
"2 1 27529 27466 887 XOR";
"2 1 887 17008 27341 XOR";
"2 1 27593 27466 14214 XOR";
"2 1 17007 27466 14213 XOR";
"2 1 14214 14213 14212 AND";
"2 1 14212 27466 27467 XOR";
"2 1 27530 27467 886 XOR";
"2 1 886 17009 27342 XOR";
"2 1 27594 27467 14211 XOR";
"2 1 17008 27467 14210 XOR";
"2 1 14211 14210 14209 AND";
"2 1 14209 27467 27468 XOR";
"2 1 27531 27468 141 XOR";
"2 1 16682 4535 17566 AND";
"1 1 141 16681 INV";
"2 1 16870 16681 27343 XOR";
"2 1 948 16681 27344 XOR";
"2 1 947 16681 27345 XOR";
"2 1 946 16681 27346 XOR";
"2 1 945 16681 27347 XOR";
"2 1 944 16681 27348 XOR";
"2 1 943 16681 27349 XOR";
"2 1 942 16681 27350 XOR";
"2 1 941 16681 27351 XOR";
"2 1 940 16681 27352 XOR";
"2 1 939 16681 27353 XOR";
"2 1 938 16681 27354 XOR";
"2 1 937 16681 27355 XOR";
"2 1 936 16681 27356 XOR";
"2 1 935 16681 27357 XOR";
"2 1 934 16681 27358 XOR";
"2 1 933 16681 27359 XOR";
"2 1 932 16681 27360 XOR";
"2 1 931 16681 27361 XOR";
"2 1 930 16681 27362 XOR";
"2 1 929 16681 27363 XOR";
"2 1 928 16681 27364 XOR";
"2 1 927 16681 27365 XOR";
"2 1 926 16681 27366 XOR";
"2 1 925 16681 27367 XOR";
"2 1 924 16681 27368 XOR";
"2 1 923 16681 27369 XOR";
"2 1 922 16681 27370 XOR";
"2 1 921 16681 27371 XOR";
"2 1 920 16681 27372 XOR";
"2 1 919 16681 27373 XOR";
"2 1 918 16681 27374 XOR";
"2 1 917 16681 27375 XOR";
"2 1 916 16681 27376 XOR";
"2 1 915 16681 27377 XOR";
"2 1 914 16681 27378 XOR";
"2 1 913 16681 27379 XOR";
"2 1 912 16681 27380 XOR";
"2 1 911 16681 27381 XOR";
"2 1 910 16681 27382 XOR";
"2 1 909 16681 27383 XOR";
"2 1 908 16681 27384 XOR";
"2 1 907 16681 27385 XOR";
"2 1 906 16681 27386 XOR";
"2 1 905 16681 27387 XOR";
"2 1 904 16681 27388 XOR";
"2 1 903 16681 27389 XOR";
"2 1 902 16681 27390 XOR";
"2 1 901 16681 27391 XOR";
"2 1 900 16681 27392 XOR";
"2 1 899 16681 27393 XOR";
"2 1 898 16681 27394 XOR";
"2 1 897 16681 27395 XOR";
"2 1 896 16681 27396 XOR";
"2 1 895 16681 27397 XOR";
"2 1 894 16681 27398 XOR";
"2 1 893 16681 27399 XOR";
"2 1 892 16681 27400 XOR";
"2 1 891 16681 27401 XOR";
"2 1 890 16681 27402 XOR";
"2 1 889 16681 27403 XOR";
"2 1 888 16681 27404 XOR";
"2 1 887 16681 27405 XOR";
"2 1 27343 16946 27217 AND";
"2 1 27280 27217 1010 XOR";
"2 1 1010 16948 27092 XOR";
"2 1 27344 27217 14208 XOR";
"2 1 16947 27217 14207 XOR";
"2 1 14208 14207 14206 AND";
"2 1 14206 27217 27218 XOR";
"2 1 27281 27218 1009 XOR";
"2 1 1009 16949 27093 XOR";
"2 1 27345 27218 14205 XOR";
"2 1 16948 27218 14204 XOR";
"2 1 14205 14204 14203 AND";
"2 1 14203 27218 27219 XOR";
"2 1 27282 27219 1008 XOR";
"2 1 1008 16950 27094 XOR";
"2 1 27346 27219 14202 XOR";
"2 1 16949 27219 14201 XOR";
"2 1 14202 14201 14200 AND";
"2 1 14200 27219 27220 XOR";
"2 1 27283 27220 1007 XOR";
"2 1 1007 16951 27095 XOR";
"2 1 27347 27220 14199 XOR";
"2 1 16950 27220 14198 XOR";
"2 1 14199 14198 14197 AND";
"2 1 14197 27220 27221 XOR";
"2 1 27284 27221 1006 XOR";
"2 1 1006 16952 27096 XOR";
"2 1 27348 27221 14196 XOR";
"2 1 16951 27221 14195 XOR";
"2 1 14196 14195 14194 AND";
"2 1 14194 27221 27222 XOR";
"2 1 27285 27222 1005 XOR";
"2 1 1005 16953 27097 XOR";
"2 1 27349 27222 14193 XOR";
"2 1 16952 27222 14192 XOR";
"2 1 14193 14192 14191 AND";
"2 1 14191 27222 27223 XOR";
"2 1 27286 27223 1004 XOR";
"2 1 1004 16954 27098 XOR";
"2 1 27350 27223 14190 XOR";
"2 1 16953 27223 14189 XOR";
"2 1 14190 14189 14188 AND";
"2 1 14188 27223 27224 XOR";
"2 1 27287 27224 1003 XOR";
"2 1 1003 16955 27099 XOR";
"2 1 27351 27224 14187 XOR";
"2 1 16954 27224 14186 XOR";
"2 1 14187 14186 14185 AND";
"2 1 14185 27224 27225 XOR";
"2 1 27288 27225 1002 XOR";
"2 1 1002 16956 27100 XOR";
"2 1 27352 27225 14184 XOR";
"2 1 16955 27225 14183 XOR";
"2 1 14184 14183 14182 AND";
"2 1 14182 27225 27226 XOR";
"2 1 27289 27226 1001 XOR";
"2 1 1001 16957 27101 XOR";
"2 1 27353 27226 14181 XOR";
"2 1 16956 27226 14180 XOR";
"2 1 14181 14180 14179 AND";
"2 1 14179 27226 27227 XOR";
"2 1 27290 27227 1000 XOR";
"2 1 1000 16958 27102 XOR";
"2 1 27354 27227 14178 XOR";
"2 1 16957 27227 14177 XOR";
"2 1 14178 14177 14176 AND";
"2 1 14176 27227 27228 XOR";
"2 1 27291 27228 999 XOR";
"2 1 999 16959 27103 XOR";
"2 1 27355 27228 14175 XOR";
"2 1 16958 27228 14174 XOR";
"2 1 14175 14174 14173 AND";
"2 1 14173 27228 27229 XOR";
"2 1 27292 27229 998 XOR";
"2 1 998 16960 27104 XOR";
"2 1 27356 27229 14172 XOR";
"2 1 16959 27229 14171 XOR";
"2 1 14172 14171 14170 AND";
"2 1 14170 27229 27230 XOR";
"2 1 27293 27230 997 XOR";
"2 1 997 16961 27105 XOR";
"2 1 27357 27230 14169 XOR";
"2 1 16960 27230 14168 XOR";
"2 1 14169 14168 14167 AND";
"2 1 14167 27230 27231 XOR";
"2 1 27294 27231 996 XOR";
"2 1 996 16962 27106 XOR";
"2 1 27358 27231 14166 XOR";
"2 1 16961 27231 14165 XOR";
"2 1 14166 14165 14164 AND";
"2 1 14164 27231 27232 XOR";
"2 1 27295 27232 995 XOR";
"2 1 995 16963 27107 XOR";
"2 1 27359 27232 14163 XOR";
"2 1 16962 27232 14162 XOR";
"2 1 14163 14162 14161 AND";
"2 1 14161 27232 27233 XOR";
"2 1 27296 27233 994 XOR";
"2 1 994 16964 27108 XOR";
"2 1 27360 27233 14160 XOR";
"2 1 16963 27233 14159 XOR";
"2 1 14160 14159 14158 AND";
"2 1 14158 27233 27234 XOR";
"2 1 27297 27234 993 XOR";
"2 1 993 16965 27109 XOR";
"2 1 27361 27234 14157 XOR";
"2 1 16964 27234 14156 XOR";
"2 1 14157 14156 14155 AND";
"2 1 14155 27234 27235 XOR";
"2 1 27298 27235 992 XOR";
"2 1 992 16966 27110 XOR";
"2 1 27362 27235 14154 XOR";
"2 1 16965 27235 14153 XOR";
"2 1 14154 14153 14152 AND";
"2 1 14152 27235 27236 XOR";
"2 1 27299 27236 991 XOR";
"2 1 991 16967 27111 XOR";
"2 1 27363 27236 14151 XOR";
"2 1 16966 27236 14150 XOR";
"2 1 14151 14150 14149 AND";
"2 1 14149 27236 27237 XOR";
"2 1 27300 27237 990 XOR";
"2 1 990 16968 27112 XOR";
"2 1 27364 27237 14148 XOR";
"2 1 16967 27237 14147 XOR";
"2 1 14148 14147 14146 AND";
"2 1 14146 27237 27238 XOR";
"2 1 27301 27238 989 XOR";
"2 1 989 16969 27113 XOR";
"2 1 27365 27238 14145 XOR";
"2 1 16968 27238 14144 XOR";
"2 1 14145 14144 14143 AND";
"2 1 14143 27238 27239 XOR";
"2 1 27302 27239 988 XOR";
"2 1 988 16970 27114 XOR";
"2 1 27366 27239 14142 XOR";
"2 1 16969 27239 14141 XOR";
"2 1 14142 14141 14140 AND";
"2 1 14140 27239 27240 XOR";
"2 1 27303 27240 987 XOR";
"2 1 987 16971 27115 XOR";
"2 1 27367 27240 14139 XOR";
"2 1 16970 27240 14138 XOR";
"2 1 14139 14138 14137 AND";
"2 1 14137 27240 27241 XOR";
"2 1 27304 27241 986 XOR";
"2 1 986 16972 27116 XOR";
"2 1 27368 27241 14136 XOR";
"2 1 16971 27241 14135 XOR";
"2 1 14136 14135 14134 AND";
"2 1 14134 27241 27242 XOR";
"2 1 27305 27242 985 XOR";
"2 1 985 16973 27117 XOR";
"2 1 27369 27242 14133 XOR";
"2 1 16972 27242 14132 XOR";
"2 1 14133 14132 14131 AND";
"2 1 14131 27242 27243 XOR";
"2 1 27306 27243 984 XOR";
"2 1 984 16974 27118 XOR";
"2 1 27370 27243 14130 XOR";
"2 1 16973 27243 14129 XOR";
"2 1 14130 14129 14128 AND";
"2 1 14128 27243 27244 XOR";
"2 1 27307 27244 983 XOR";
"2 1 983 16975 27119 XOR";
"2 1 27371 27244 14127 XOR";
"2 1 16974 27244 14126 XOR";
"2 1 14127 14126 14125 AND";
"2 1 14125 27244 27245 XOR";
"2 1 27308 27245 982 XOR";
"2 1 982 16976 27120 XOR";
"2 1 27372 27245 14124 XOR";
"2 1 16975 27245 14123 XOR";
"2 1 14124 14123 14122 AND";
"2 1 14122 27245 27246 XOR";
"2 1 27309 27246 981 XOR";
"2 1 981 16977 27121 XOR";
"2 1 27373 27246 14121 XOR";
"2 1 16976 27246 14120 XOR";
"2 1 14121 14120 14119 AND";
"2 1 14119 27246 27247 XOR";
"2 1 27310 27247 980 XOR";
"2 1 980 16978 27122 XOR";
"2 1 27374 27247 14118 XOR";
"2 1 16977 27247 14117 XOR";
"2 1 14118 14117 14116 AND";
"2 1 14116 27247 27248 XOR";
"2 1 27311 27248 979 XOR";
"2 1 979 16979 27123 XOR";
"2 1 27375 27248 14115 XOR";
"2 1 16978 27248 14114 XOR";
"2 1 14115 14114 14113 AND";
"2 1 14113 27248 27249 XOR";
"2 1 27312 27249 978 XOR";
"2 1 978 16980 27124 XOR";
"2 1 27376 27249 14112 XOR";
"2 1 16979 27249 14111 XOR";
"2 1 14112 14111 14110 AND";
"2 1 14110 27249 27250 XOR";
"2 1 27313 27250 977 XOR";
"2 1 977 16981 27125 XOR";
"2 1 27377 27250 14109 XOR";
"2 1 16980 27250 14108 XOR";
"2 1 14109 14108 14107 AND";
"2 1 14107 27250 27251 XOR";
"2 1 27314 27251 976 XOR";
"2 1 976 16982 27126 XOR";
"2 1 27378 27251 14106 XOR";
"2 1 16981 27251 14105 XOR";
"2 1 14106 14105 14104 AND";
"2 1 14104 27251 27252 XOR";
"2 1 27315 27252 975 XOR";
"2 1 975 16983 27127 XOR";
"2 1 27379 27252 14103 XOR";
"2 1 16982 27252 14102 XOR";
"2 1 14103 14102 14101 AND";
"2 1 14101 27252 27253 XOR";
"2 1 27316 27253 974 XOR";
"2 1 974 16984 27128 XOR";
"2 1 27380 27253 14100 XOR";
"2 1 16983 27253 14099 XOR";
"2 1 14100 14099 14098 AND";
"2 1 14098 27253 27254 XOR";
"2 1 27317 27254 973 XOR";
"2 1 973 16985 27129 XOR";
"2 1 27381 27254 14097 XOR";
"2 1 16984 27254 14096 XOR";
"2 1 14097 14096 14095 AND";
"2 1 14095 27254 27255 XOR";
"2 1 27318 27255 972 XOR";
"2 1 972 16986 27130 XOR";
"2 1 27382 27255 14094 XOR";
"2 1 16985 27255 14093 XOR";
"2 1 14094 14093 14092 AND";
"2 1 14092 27255 27256 XOR";
"2 1 27319 27256 971 XOR";
"2 1 971 16987 27131 XOR";
"2 1 27383 27256 14091 XOR";
"2 1 16986 27256 14090 XOR";
"2 1 14091 14090 14089 AND";
"2 1 14089 27256 27257 XOR";
"2 1 27320 27257 970 XOR";
"2 1 970 16988 27132 XOR";
"2 1 27384 27257 14088 XOR";
"2 1 16987 27257 14087 XOR";
"2 1 14088 14087 14086 AND";
"2 1 14086 27257 27258 XOR";
"2 1 27321 27258 969 XOR";
"2 1 969 16989 27133 XOR";
"2 1 27385 27258 14085 XOR";
"2 1 16988 27258 14084 XOR";
"2 1 14085 14084 14083 AND";
"2 1 14083 27258 27259 XOR";
"2 1 27322 27259 968 XOR";
"2 1 968 16990 27134 XOR";
"2 1 27386 27259 14082 XOR";
"2 1 16989 27259 14081 XOR";
"2 1 14082 14081 14080 AND";
"2 1 14080 27259 27260 XOR";
"2 1 27323 27260 967 XOR";
"2 1 967 16991 27135 XOR";
"2 1 27387 27260 14079 XOR";
"2 1 16990 27260 14078 XOR";
"2 1 14079 14078 14077 AND";
"2 1 14077 27260 27261 XOR";
"2 1 27324 27261 966 XOR";
"2 1 966 16992 27136 XOR";
"2 1 27388 27261 14076 XOR";
"2 1 16991 27261 14075 XOR";
"2 1 14076 14075 14074 AND";
"2 1 14074 27261 27262 XOR";
"2 1 27325 27262 965 XOR";
"2 1 965 16993 27137 XOR";
"2 1 27389 27262 14073 XOR";
"2 1 16992 27262 14072 XOR";
"2 1 14073 14072 14071 AND";
"2 1 14071 27262 27263 XOR";
"2 1 27326 27263 964 XOR";
"2 1 964 16994 27138 XOR";
"2 1 27390 27263 14070 XOR";
"2 1 16993 27263 14069 XOR";
"2 1 14070 14069 14068 AND";
"2 1 14068 27263 27264 XOR";
"2 1 27327 27264 963 XOR";
"2 1 963 16995 27139 XOR";
"2 1 27391 27264 14067 XOR";
"2 1 16994 27264 14066 XOR";
"2 1 14067 14066 14065 AND";
"2 1 14065 27264 27265 XOR";
"2 1 27328 27265 962 XOR";
"2 1 962 16996 27140 XOR";
"2 1 27392 27265 14064 XOR";
"2 1 16995 27265 14063 XOR";
"2 1 14064 14063 14062 AND";
"2 1 14062 27265 27266 XOR";
"2 1 27329 27266 961 XOR";
"2 1 961 16997 27141 XOR";
"2 1 27393 27266 14061 XOR";
"2 1 16996 27266 14060 XOR";
"2 1 14061 14060 14059 AND";
"2 1 14059 27266 27267 XOR";
"2 1 27330 27267 960 XOR";
"2 1 960 16998 27142 XOR";
"2 1 27394 27267 14058 XOR";
"2 1 16997 27267 14057 XOR";
"2 1 14058 14057 14056 AND";
"2 1 14056 27267 27268 XOR";
"2 1 27331 27268 959 XOR";
"2 1 959 16999 27143 XOR";
"2 1 27395 27268 14055 XOR";
"2 1 16998 27268 14054 XOR";
"2 1 14055 14054 14053 AND";
"2 1 14053 27268 27269 XOR";
"2 1 27332 27269 958 XOR";
"2 1 958 17000 27144 XOR";
"2 1 27396 27269 14052 XOR";
"2 1 16999 27269 14051 XOR";
"2 1 14052 14051 14050 AND";
"2 1 14050 27269 27270 XOR";
"2 1 27333 27270 957 XOR";
"2 1 957 17001 27145 XOR";
"2 1 27397 27270 14049 XOR";
"2 1 17000 27270 14048 XOR";
"2 1 14049 14048 14047 AND";
"2 1 14047 27270 27271 XOR";
"2 1 27334 27271 956 XOR";
"2 1 956 17002 27146 XOR";
"2 1 27398 27271 14046 XOR";
"2 1 17001 27271 14045 XOR";
"2 1 14046 14045 14044 AND";
"2 1 14044 27271 27272 XOR";
"2 1 27335 27272 955 XOR";
"2 1 955 17003 27147 XOR";
"2 1 27399 27272 14043 XOR";
"2 1 17002 27272 14042 XOR";
"2 1 14043 14042 14041 AND";
"2 1 14041 27272 27273 XOR";
"2 1 27336 27273 954 XOR";
"2 1 954 17004 27148 XOR";
"2 1 27400 27273 14040 XOR";
"2 1 17003 27273 14039 XOR";
"2 1 14040 14039 14038 AND";
"2 1 14038 27273 27274 XOR";
"2 1 27337 27274 953 XOR";
"2 1 953 17005 27149 XOR";
"2 1 27401 27274 14037 XOR";
"2 1 17004 27274 14036 XOR";
"2 1 14037 14036 14035 AND";
"2 1 14035 27274 27275 XOR";
"2 1 27338 27275 952 XOR";
"2 1 952 17006 27150 XOR";
"2 1 27402 27275 14034 XOR";
"2 1 17005 27275 14033 XOR";
"2 1 14034 14033 14032 AND";
"2 1 14032 27275 27276 XOR";
"2 1 27339 27276 951 XOR";
"2 1 951 17007 27151 XOR";
"2 1 27403 27276 14031 XOR";
"2 1 17006 27276 14030 XOR";
"2 1 14031 14030 14029 AND";
"2 1 14029 27276 27277 XOR";
"2 1 27340 27277 950 XOR";
"2 1 950 17008 27152 XOR";
"2 1 27404 27277 14028 XOR";
"2 1 17007 27277 14027 XOR";
"2 1 14028 14027 14026 AND";
"2 1 14026 27277 27278 XOR";
"2 1 27341 27278 949 XOR";
"2 1 949 17009 27153 XOR";
"2 1 27405 27278 14025 XOR";
"2 1 17008 27278 14024 XOR";
"2 1 14025 14024 14023 AND";
"2 1 14023 27278 27279 XOR";
"2 1 27342 27279 142 XOR";
"1 1 142 16680 INV";
"2 1 16869 16680 27154 XOR";
"2 1 1011 16680 27155 XOR";
"2 1 1010 16680 27156 XOR";
"2 1 1009 16680 27157 XOR";
"2 1 1008 16680 27158 XOR";
"2 1 1007 16680 27159 XOR";
"2 1 1006 16680 27160 XOR";
"2 1 1005 16680 27161 XOR";
"2 1 1004 16680 27162 XOR";
"2 1 1003 16680 27163 XOR";
"2 1 1002 16680 27164 XOR";
"2 1 1001 16680 27165 XOR";
"2 1 1000 16680 27166 XOR";
"2 1 999 16680 27167 XOR";
"2 1 998 16680 27168 XOR";
"2 1 997 16680 27169 XOR";
"2 1 996 16680 27170 XOR";
"2 1 995 16680 27171 XOR";
"2 1 994 16680 27172 XOR";
"2 1 993 16680 27173 XOR";
"2 1 992 16680 27174 XOR";
"2 1 991 16680 27175 XOR";
"2 1 990 16680 27176 XOR";
"2 1 989 16680 27177 XOR";
"2 1 988 16680 27178 XOR";
"2 1 987 16680 27179 XOR";
"2 1 986 16680 27180 XOR";
"2 1 985 16680 27181 XOR";
"2 1 984 16680 27182 XOR";
"2 1 983 16680 27183 XOR";
"2 1 982 16680 27184 XOR";
"2 1 981 16680 27185 XOR";
"2 1 980 16680 27186 XOR";
"2 1 979 16680 27187 XOR";
"2 1 978 16680 27188 XOR";
"2 1 977 16680 27189 XOR";
"2 1 976 16680 27190 XOR";
"2 1 975 16680 27191 XOR";
"2 1 974 16680 27192 XOR";
"2 1 973 16680 27193 XOR";
"2 1 972 16680 27194 XOR";
"2 1 971 16680 27195 XOR";
"2 1 970 16680 27196 XOR";
"2 1 969 16680 27197 XOR";
"2 1 968 16680 27198 XOR";
"2 1 967 16680 27199 XOR";
"2 1 966 16680 27200 XOR";
"2 1 965 16680 27201 XOR";
"2 1 964 16680 27202 XOR";
"2 1 963 16680 27203 XOR";
"2 1 962 16680 27204 XOR";
"2 1 961 16680 27205 XOR";
"2 1 960 16680 27206 XOR";
"2 1 959 16680 27207 XOR";
"2 1 958 16680 27208 XOR";
"2 1 957 16680 27209 XOR";
"2 1 956 16680 27210 XOR";
"2 1 955 16680 27211 XOR";
"2 1 954 16680 27212 XOR";
"2 1 953 16680 27213 XOR";
"2 1 952 16680 27214 XOR";
"2 1 951 16680 27215 XOR";
"2 1 950 16680 27216 XOR";
"2 1 27154 16946 27028 AND";
"2 1 27091 27028 1073 XOR";
"2 1 1073 16948 26903 XOR";
"2 1 27155 27028 14022 XOR";
"2 1 16947 27028 14021 XOR";
"2 1 14022 14021 14020 AND";
"2 1 14020 27028 27029 XOR";
"2 1 27092 27029 1072 XOR";
"2 1 1072 16949 26904 XOR";
"2 1 27156 27029 14019 XOR";
"2 1 16948 27029 14018 XOR";
"2 1 14019 14018 14017 AND";
"2 1 14017 27029 27030 XOR";
"2 1 27093 27030 1071 XOR";
"2 1 1071 16950 26905 XOR";
"2 1 27157 27030 14016 XOR";
"2 1 16949 27030 14015 XOR";
"2 1 14016 14015 14014 AND";
"2 1 14014 27030 27031 XOR";
"2 1 27094 27031 1070 XOR";
"2 1 1070 16951 26906 XOR";
"2 1 27158 27031 14013 XOR";
"2 1 16950 27031 14012 XOR";
"2 1 14013 14012 14011 AND";
"2 1 14011 27031 27032 XOR";
"2 1 27095 27032 1069 XOR";
"2 1 1069 16952 26907 XOR";
"2 1 27159 27032 14010 XOR";
"2 1 16951 27032 14009 XOR";
"2 1 14010 14009 14008 AND";
"2 1 14008 27032 27033 XOR";
"2 1 27096 27033 1068 XOR";
"2 1 1068 16953 26908 XOR";
"2 1 27160 27033 14007 XOR";
"2 1 16952 27033 14006 XOR";
"2 1 14007 14006 14005 AND";
"2 1 14005 27033 27034 XOR";
"2 1 27097 27034 1067 XOR";
"2 1 1067 16954 26909 XOR";
"2 1 27161 27034 14004 XOR";
"2 1 16953 27034 14003 XOR";
"2 1 14004 14003 14002 AND";
"2 1 14002 27034 27035 XOR";
"2 1 27098 27035 1066 XOR";
"2 1 1066 16955 26910 XOR";
"2 1 27162 27035 14001 XOR";
"2 1 16954 27035 14000 XOR";
"2 1 14001 14000 13999 AND";
"2 1 13999 27035 27036 XOR";
"2 1 27099 27036 1065 XOR";
"2 1 1065 16956 26911 XOR";
"2 1 27163 27036 13998 XOR";
"2 1 16955 27036 13997 XOR";
"2 1 13998 13997 13996 AND";
"2 1 13996 27036 27037 XOR";
"2 1 27100 27037 1064 XOR";
"2 1 1064 16957 26912 XOR";
"2 1 27164 27037 13995 XOR";
"2 1 16956 27037 13994 XOR";
"2 1 13995 13994 13993 AND";
"2 1 13993 27037 27038 XOR";
"2 1 27101 27038 1063 XOR";
"2 1 1063 16958 26913 XOR";
"2 1 27165 27038 13992 XOR";
"2 1 16957 27038 13991 XOR";
"2 1 13992 13991 13990 AND";
"2 1 13990 27038 27039 XOR";
"2 1 27102 27039 1062 XOR";
"2 1 1062 16959 26914 XOR";
"2 1 27166 27039 13989 XOR";
"2 1 16958 27039 13988 XOR";
"2 1 13989 13988 13987 AND";
"2 1 13987 27039 27040 XOR";
"2 1 27103 27040 1061 XOR";
"2 1 1061 16960 26915 XOR";
"2 1 27167 27040 13986 XOR";
"2 1 16959 27040 13985 XOR";
"2 1 13986 13985 13984 AND";
"2 1 13984 27040 27041 XOR";
"2 1 27104 27041 1060 XOR";
"2 1 1060 16961 26916 XOR";
"2 1 27168 27041 13983 XOR";
"2 1 16960 27041 13982 XOR";
"2 1 13983 13982 13981 AND";
"2 1 13981 27041 27042 XOR";
"2 1 27105 27042 1059 XOR";
"2 1 1059 16962 26917 XOR";
"2 1 27169 27042 13980 XOR";
"2 1 16961 27042 13979 XOR";
"2 1 13980 13979 13978 AND";
"2 1 13978 27042 27043 XOR";
"2 1 27106 27043 1058 XOR";
"2 1 1058 16963 26918 XOR";
"2 1 27170 27043 13977 XOR";
"2 1 16962 27043 13976 XOR";
"2 1 13977 13976 13975 AND";
"2 1 13975 27043 27044 XOR";
"2 1 27107 27044 1057 XOR";
"2 1 1057 16964 26919 XOR";
"2 1 27171 27044 13974 XOR";
"2 1 16963 27044 13973 XOR";
"2 1 13974 13973 13972 AND";
"2 1 13972 27044 27045 XOR";
"2 1 27108 27045 1056 XOR";
"2 1 1056 16965 26920 XOR";
"2 1 27172 27045 13971 XOR";
"2 1 16964 27045 13970 XOR";
"2 1 13971 13970 13969 AND";
"2 1 13969 27045 27046 XOR";
"2 1 27109 27046 1055 XOR";
"2 1 1055 16966 26921 XOR";
"2 1 27173 27046 13968 XOR";
"2 1 16965 27046 13967 XOR";
"2 1 13968 13967 13966 AND";
"2 1 13966 27046 27047 XOR";
"2 1 27110 27047 1054 XOR";
"2 1 1054 16967 26922 XOR";
"2 1 27174 27047 13965 XOR";
"2 1 16966 27047 13964 XOR";
"2 1 13965 13964 13963 AND";
"2 1 13963 27047 27048 XOR";
"2 1 27111 27048 1053 XOR";
"2 1 1053 16968 26923 XOR";
"2 1 27175 27048 13962 XOR";
"2 1 16967 27048 13961 XOR";
"2 1 13962 13961 13960 AND";
"2 1 13960 27048 27049 XOR";
"2 1 27112 27049 1052 XOR";
"2 1 1052 16969 26924 XOR";
"2 1 27176 27049 13959 XOR";
"2 1 16968 27049 13958 XOR";
"2 1 13959 13958 13957 AND";
"2 1 13957 27049 27050 XOR";
"2 1 27113 27050 1051 XOR";
"2 1 1051 16970 26925 XOR";
"2 1 27177 27050 13956 XOR";
"2 1 16969 27050 13955 XOR";
"2 1 13956 13955 13954 AND";
"2 1 13954 27050 27051 XOR";
"2 1 27114 27051 1050 XOR";
"2 1 1050 16971 26926 XOR";
"2 1 27178 27051 13953 XOR";
"2 1 16970 27051 13952 XOR";
"2 1 13953 13952 13951 AND";
"2 1 13951 27051 27052 XOR";
"2 1 27115 27052 1049 XOR";
"2 1 1049 16972 26927 XOR";
"2 1 27179 27052 13950 XOR";
"2 1 16971 27052 13949 XOR";
"2 1 13950 13949 13948 AND";
"2 1 13948 27052 27053 XOR";
"2 1 27116 27053 1048 XOR";
"2 1 1048 16973 26928 XOR";
"2 1 27180 27053 13947 XOR";
"2 1 16972 27053 13946 XOR";
"2 1 13947 13946 13945 AND";
"2 1 13945 27053 27054 XOR";
"2 1 27117 27054 1047 XOR";
"2 1 1047 16974 26929 XOR";
"2 1 27181 27054 13944 XOR";
"2 1 16973 27054 13943 XOR";
"2 1 13944 13943 13942 AND";
"2 1 13942 27054 27055 XOR";
"2 1 27118 27055 1046 XOR";
"2 1 1046 16975 26930 XOR";
"2 1 27182 27055 13941 XOR";
"2 1 16974 27055 13940 XOR";
"2 1 13941 13940 13939 AND";
"2 1 13939 27055 27056 XOR";
"2 1 27119 27056 1045 XOR";
"2 1 1045 16976 26931 XOR";
"2 1 27183 27056 13938 XOR";
"2 1 16975 27056 13937 XOR";
"2 1 13938 13937 13936 AND";
"2 1 13936 27056 27057 XOR";
"2 1 27120 27057 1044 XOR";
"2 1 1044 16977 26932 XOR";
"2 1 27184 27057 13935 XOR";
"2 1 16976 27057 13934 XOR";
"2 1 13935 13934 13933 AND";
"2 1 13933 27057 27058 XOR";
"2 1 27121 27058 1043 XOR";
"2 1 1043 16978 26933 XOR";
"2 1 27185 27058 13932 XOR";
"2 1 16977 27058 13931 XOR";
"2 1 13932 13931 13930 AND";
"2 1 13930 27058 27059 XOR";
"2 1 27122 27059 1042 XOR";
"2 1 1042 16979 26934 XOR";
"2 1 27186 27059 13929 XOR";
"2 1 16978 27059 13928 XOR";
"2 1 13929 13928 13927 AND";
"2 1 13927 27059 27060 XOR";
"2 1 27123 27060 1041 XOR";
"2 1 1041 16980 26935 XOR";
"2 1 27187 27060 13926 XOR";
"2 1 16979 27060 13925 XOR";
"2 1 13926 13925 13924 AND";
"2 1 13924 27060 27061 XOR";
"2 1 27124 27061 1040 XOR";
"2 1 1040 16981 26936 XOR";
"2 1 27188 27061 13923 XOR";
"2 1 16980 27061 13922 XOR";
"2 1 13923 13922 13921 AND";
"2 1 13921 27061 27062 XOR";
"2 1 27125 27062 1039 XOR";
"2 1 1039 16982 26937 XOR";
"2 1 27189 27062 13920 XOR";
"2 1 16981 27062 13919 XOR";
"2 1 13920 13919 13918 AND";
"2 1 13918 27062 27063 XOR";
"2 1 27126 27063 1038 XOR";
"2 1 1038 16983 26938 XOR";
"2 1 27190 27063 13917 XOR";
"2 1 16982 27063 13916 XOR";
"2 1 13917 13916 13915 AND";
"2 1 13915 27063 27064 XOR";
"2 1 27127 27064 1037 XOR";
"2 1 1037 16984 26939 XOR";
"2 1 27191 27064 13914 XOR";
"2 1 16983 27064 13913 XOR";
"2 1 13914 13913 13912 AND";
"2 1 13912 27064 27065 XOR";
"2 1 27128 27065 1036 XOR";
"2 1 1036 16985 26940 XOR";
"2 1 27192 27065 13911 XOR";
"2 1 16984 27065 13910 XOR";
"2 1 13911 13910 13909 AND";
"2 1 13909 27065 27066 XOR";
"2 1 27129 27066 1035 XOR";
"2 1 1035 16986 26941 XOR";
"2 1 27193 27066 13908 XOR";
"2 1 16985 27066 13907 XOR";
"2 1 13908 13907 13906 AND";
"2 1 13906 27066 27067 XOR";
"2 1 27130 27067 1034 XOR";
"2 1 1034 16987 26942 XOR";
"2 1 27194 27067 13905 XOR";
"2 1 16986 27067 13904 XOR";
"2 1 13905 13904 13903 AND";
"2 1 13903 27067 27068 XOR";
"2 1 27131 27068 1033 XOR";
"2 1 1033 16988 26943 XOR";
"2 1 27195 27068 13902 XOR";
"2 1 16987 27068 13901 XOR";
"2 1 13902 13901 13900 AND";
"2 1 13900 27068 27069 XOR";
"2 1 27132 27069 1032 XOR";
"2 1 1032 16989 26944 XOR";
"2 1 27196 27069 13899 XOR";
"2 1 16988 27069 13898 XOR";
"2 1 13899 13898 13897 AND";
"2 1 13897 27069 27070 XOR";
"2 1 27133 27070 1031 XOR";
"2 1 1031 16990 26945 XOR";
"2 1 27197 27070 13896 XOR";
"2 1 16989 27070 13895 XOR";
"2 1 13896 13895 13894 AND";
"2 1 13894 27070 27071 XOR";
"2 1 27134 27071 1030 XOR";
"2 1 1030 16991 26946 XOR";
"2 1 27198 27071 13893 XOR";
"2 1 16990 27071 13892 XOR";
"2 1 13893 13892 13891 AND";
"2 1 13891 27071 27072 XOR";
"2 1 27135 27072 1029 XOR";
"2 1 1029 16992 26947 XOR";
"2 1 27199 27072 13890 XOR";
"2 1 16991 27072 13889 XOR";
"2 1 13890 13889 13888 AND";
"2 1 13888 27072 27073 XOR";
"2 1 27136 27073 1028 XOR";
"2 1 1028 16993 26948 XOR";
"2 1 27200 27073 13887 XOR";
"2 1 16992 27073 13886 XOR";
"2 1 13887 13886 13885 AND";
"2 1 13885 27073 27074 XOR";
"2 1 27137 27074 1027 XOR";
"2 1 1027 16994 26949 XOR";
"2 1 27201 27074 13884 XOR";
"2 1 16993 27074 13883 XOR";
"2 1 13884 13883 13882 AND";
"2 1 13882 27074 27075 XOR";
"2 1 27138 27075 1026 XOR";
"2 1 1026 16995 26950 XOR";
"2 1 27202 27075 13881 XOR";
"2 1 16994 27075 13880 XOR";
"2 1 13881 13880 13879 AND";
"2 1 13879 27075 27076 XOR";
"2 1 27139 27076 1025 XOR";
"2 1 1025 16996 26951 XOR";
"2 1 27203 27076 13878 XOR";
"2 1 16995 27076 13877 XOR";
"2 1 13878 13877 13876 AND";
"2 1 13876 27076 27077 XOR";
"2 1 27140 27077 1024 XOR";
"2 1 1024 16997 26952 XOR";
"2 1 27204 27077 13875 XOR";
"2 1 16996 27077 13874 XOR";
"2 1 13875 13874 13873 AND";
"2 1 13873 27077 27078 XOR";
"2 1 27141 27078 1023 XOR";
"2 1 1023 16998 26953 XOR";
"2 1 27205 27078 13872 XOR";
"2 1 16997 27078 13871 XOR";
"2 1 13872 13871 13870 AND";
"2 1 13870 27078 27079 XOR";
"2 1 27142 27079 1022 XOR";
"2 1 1022 16999 26954 XOR";
"2 1 27206 27079 13869 XOR";
"2 1 16998 27079 13868 XOR";
"2 1 13869 13868 13867 AND";
"2 1 13867 27079 27080 XOR";
"2 1 27143 27080 1021 XOR";
"2 1 1021 17000 26955 XOR";
"2 1 27207 27080 13866 XOR";
"2 1 16999 27080 13865 XOR";
"2 1 13866 13865 13864 AND";
"2 1 13864 27080 27081 XOR";
"2 1 27144 27081 1020 XOR";
"2 1 1020 17001 26956 XOR";
"2 1 27208 27081 13863 XOR";
"2 1 17000 27081 13862 XOR";
"2 1 13863 13862 13861 AND";
"2 1 13861 27081 27082 XOR";
"2 1 27145 27082 1019 XOR";
"2 1 1019 17002 26957 XOR";
"2 1 27209 27082 13860 XOR";
"2 1 17001 27082 13859 XOR";
"2 1 13860 13859 13858 AND";
"2 1 13858 27082 27083 XOR";
"2 1 27146 27083 1018 XOR";
"2 1 1018 17003 26958 XOR";
"2 1 27210 27083 13857 XOR";
"2 1 17002 27083 13856 XOR";
"2 1 13857 13856 13855 AND";
"2 1 13855 27083 27084 XOR";
"2 1 27147 27084 1017 XOR";
"2 1 1017 17004 26959 XOR";
"2 1 27211 27084 13854 XOR";
"2 1 17003 27084 13853 XOR";
"2 1 13854 13853 13852 AND";
"2 1 13852 27084 27085 XOR";
"2 1 27148 27085 1016 XOR";
"2 1 1016 17005 26960 XOR";
"2 1 27212 27085 13851 XOR";
"2 1 17004 27085 13850 XOR";
"2 1 13851 13850 13849 AND";
"2 1 13849 27085 27086 XOR";
"2 1 27149 27086 1015 XOR";
"2 1 1015 17006 26961 XOR";
"2 1 27213 27086 13848 XOR";
"2 1 17005 27086 13847 XOR";
"2 1 13848 13847 13846 AND";
"2 1 13846 27086 27087 XOR";
"2 1 27150 27087 1014 XOR";
"2 1 1014 17007 26962 XOR";
"2 1 27214 27087 13845 XOR";
"2 1 17006 27087 13844 XOR";
"2 1 13845 13844 13843 AND";
"2 1 13843 27087 27088 XOR";
"2 1 27151 27088 1013 XOR";
"2 1 1013 17008 26963 XOR";
"2 1 27215 27088 13842 XOR";
"2 1 17007 27088 13841 XOR";
"2 1 13842 13841 13840 AND";
"2 1 13840 27088 27089 XOR";
"2 1 27152 27089 1012 XOR";
"2 1 1012 17009 26964 XOR";
"2 1 27216 27089 13839 XOR";
"2 1 17008 27089 13838 XOR";
"2 1 13839 13838 13837 AND";
"2 1 13837 27089 27090 XOR";
"2 1 27153 27090 143 XOR";
"2 1 16680 4535 17564 AND";
"1 1 143 16679 INV";
"2 1 16868 16679 26965 XOR";
"2 1 1074 16679 26966 XOR";
"2 1 1073 16679 26967 XOR";
"2 1 1072 16679 26968 XOR";
"2 1 1071 16679 26969 XOR";
"2 1 1070 16679 26970 XOR";
"2 1 1069 16679 26971 XOR";
"2 1 1068 16679 26972 XOR";
"2 1 1067 16679 26973 XOR";
"2 1 1066 16679 26974 XOR";
"2 1 1065 16679 26975 XOR";
"2 1 1064 16679 26976 XOR";
"2 1 1063 16679 26977 XOR";
"2 1 1062 16679 26978 XOR";
"2 1 1061 16679 26979 XOR";
"2 1 1060 16679 26980 XOR";
"2 1 1059 16679 26981 XOR";
"2 1 1058 16679 26982 XOR";
"2 1 1057 16679 26983 XOR";
"2 1 1056 16679 26984 XOR";
"2 1 1055 16679 26985 XOR";
"2 1 1054 16679 26986 XOR";
"2 1 1053 16679 26987 XOR";
"2 1 1052 16679 26988 XOR";
"2 1 1051 16679 26989 XOR";
"2 1 1050 16679 26990 XOR";
"2 1 1049 16679 26991 XOR";
"2 1 1048 16679 26992 XOR";
"2 1 1047 16679 26993 XOR";
"2 1 1046 16679 26994 XOR";
"2 1 1045 16679 26995 XOR";
"2 1 1044 16679 26996 XOR";
"2 1 1043 16679 26997 XOR";
"2 1 1042 16679 26998 XOR";
"2 1 1041 16679 26999 XOR";
"2 1 1040 16679 27000 XOR";
"2 1 1039 16679 27001 XOR";
"2 1 1038 16679 27002 XOR";
"2 1 1037 16679 27003 XOR";
"2 1 1036 16679 27004 XOR";
"2 1 1035 16679 27005 XOR";
"2 1 1034 16679 27006 XOR";
"2 1 1033 16679 27007 XOR";
"2 1 1032 16679 27008 XOR";
"2 1 1031 16679 27009 XOR";
"2 1 1030 16679 27010 XOR";
"2 1 1029 16679 27011 XOR";
"2 1 1028 16679 27012 XOR";
"2 1 1027 16679 27013 XOR";
"2 1 1026 16679 27014 XOR";
"2 1 1025 16679 27015 XOR";
"2 1 1024 16679 27016 XOR";
"2 1 1023 16679 27017 XOR";
"2 1 1022 16679 27018 XOR";
"2 1 1021 16679 27019 XOR";
"2 1 1020 16679 27020 XOR";
"2 1 1019 16679 27021 XOR";
"2 1 1018 16679 27022 XOR";
"2 1 1017 16679 27023 XOR";
"2 1 1016 16679 27024 XOR";
"2 1 1015 16679 27025 XOR";
"2 1 1014 16679 27026 XOR";
"2 1 1013 16679 27027 XOR";
"2 1 26965 16946 26839 AND";
"2 1 26902 26839 1136 XOR";
"2 1 1136 16948 26714 XOR";
"2 1 26966 26839 13836 XOR";
"2 1 16947 26839 13835 XOR";
"2 1 13836 13835 13834 AND";
"2 1 13834 26839 26840 XOR";
"2 1 26903 26840 1135 XOR";
"2 1 1135 16949 26715 XOR";
"2 1 26967 26840 13833 XOR";
"2 1 16948 26840 13832 XOR";
"2 1 13833 13832 13831 AND";
"2 1 13831 26840 26841 XOR";
"2 1 26904 26841 1134 XOR";
"2 1 1134 16950 26716 XOR";
"2 1 26968 26841 13830 XOR";
"2 1 16949 26841 13829 XOR";
"2 1 13830 13829 13828 AND";
"2 1 13828 26841 26842 XOR";
"2 1 26905 26842 1133 XOR";
"2 1 1133 16951 26717 XOR";
"2 1 26969 26842 13827 XOR";
"2 1 16950 26842 13826 XOR";
"2 1 13827 13826 13825 AND";
"2 1 13825 26842 26843 XOR";
"2 1 26906 26843 1132 XOR";
"2 1 1132 16952 26718 XOR";
"2 1 26970 26843 13824 XOR";
"2 1 16951 26843 13823 XOR";
"2 1 13824 13823 13822 AND";
"2 1 13822 26843 26844 XOR";
"2 1 26907 26844 1131 XOR";
"2 1 1131 16953 26719 XOR";
"2 1 26971 26844 13821 XOR";
"2 1 16952 26844 13820 XOR";
"2 1 13821 13820 13819 AND";
"2 1 13819 26844 26845 XOR";
"2 1 26908 26845 1130 XOR";
"2 1 1130 16954 26720 XOR";
"2 1 26972 26845 13818 XOR";
"2 1 16953 26845 13817 XOR";
"2 1 13818 13817 13816 AND";
"2 1 13816 26845 26846 XOR";
"2 1 26909 26846 1129 XOR";
"2 1 1129 16955 26721 XOR";
"2 1 26973 26846 13815 XOR";
"2 1 16954 26846 13814 XOR";
"2 1 13815 13814 13813 AND";
"2 1 13813 26846 26847 XOR";
"2 1 26910 26847 1128 XOR";
"2 1 1128 16956 26722 XOR";
"2 1 26974 26847 13812 XOR";
"2 1 16955 26847 13811 XOR";
"2 1 13812 13811 13810 AND";
"2 1 13810 26847 26848 XOR";
"2 1 26911 26848 1127 XOR";
"2 1 1127 16957 26723 XOR";
"2 1 26975 26848 13809 XOR";
"2 1 16956 26848 13808 XOR";
"2 1 13809 13808 13807 AND";
"2 1 13807 26848 26849 XOR";
"2 1 26912 26849 1126 XOR";
"2 1 1126 16958 26724 XOR";
"2 1 26976 26849 13806 XOR";
"2 1 16957 26849 13805 XOR";
"2 1 13806 13805 13804 AND";
"2 1 13804 26849 26850 XOR";
"2 1 26913 26850 1125 XOR";
"2 1 1125 16959 26725 XOR";
"2 1 26977 26850 13803 XOR";
"2 1 16958 26850 13802 XOR";
"2 1 13803 13802 13801 AND";
"2 1 13801 26850 26851 XOR";
"2 1 26914 26851 1124 XOR";
"2 1 1124 16960 26726 XOR";
"2 1 26978 26851 13800 XOR";
"2 1 16959 26851 13799 XOR";
"2 1 13800 13799 13798 AND";
"2 1 13798 26851 26852 XOR";
"2 1 26915 26852 1123 XOR";
"2 1 1123 16961 26727 XOR";
"2 1 26979 26852 13797 XOR";
"2 1 16960 26852 13796 XOR";
"2 1 13797 13796 13795 AND";
"2 1 13795 26852 26853 XOR";
"2 1 26916 26853 1122 XOR";
"2 1 1122 16962 26728 XOR";
"2 1 26980 26853 13794 XOR";
"2 1 16961 26853 13793 XOR";
"2 1 13794 13793 13792 AND";
"2 1 13792 26853 26854 XOR";
"2 1 26917 26854 1121 XOR";
"2 1 1121 16963 26729 XOR";
"2 1 26981 26854 13791 XOR";
"2 1 16962 26854 13790 XOR";
"2 1 13791 13790 13789 AND";
"2 1 13789 26854 26855 XOR";
"2 1 26918 26855 1120 XOR";
"2 1 1120 16964 26730 XOR";
"2 1 26982 26855 13788 XOR";
"2 1 16963 26855 13787 XOR";
"2 1 13788 13787 13786 AND";
"2 1 13786 26855 26856 XOR";
"2 1 26919 26856 1119 XOR";
"2 1 1119 16965 26731 XOR";
"2 1 26983 26856 13785 XOR";
"2 1 16964 26856 13784 XOR";
"2 1 13785 13784 13783 AND";
"2 1 13783 26856 26857 XOR";
"2 1 26920 26857 1118 XOR";
"2 1 1118 16966 26732 XOR";
"2 1 26984 26857 13782 XOR";
"2 1 16965 26857 13781 XOR";
"2 1 13782 13781 13780 AND";
"2 1 13780 26857 26858 XOR";
"2 1 26921 26858 1117 XOR";
"2 1 1117 16967 26733 XOR";
"2 1 26985 26858 13779 XOR";
"2 1 16966 26858 13778 XOR";
"2 1 13779 13778 13777 AND";
"2 1 13777 26858 26859 XOR";
"2 1 26922 26859 1116 XOR";
"2 1 1116 16968 26734 XOR";
"2 1 26986 26859 13776 XOR";
"2 1 16967 26859 13775 XOR";
"2 1 13776 13775 13774 AND";
"2 1 13774 26859 26860 XOR";
"2 1 26923 26860 1115 XOR";
"2 1 1115 16969 26735 XOR";
"2 1 26987 26860 13773 XOR";
"2 1 16968 26860 13772 XOR";
"2 1 13773 13772 13771 AND";
"2 1 13771 26860 26861 XOR";
"2 1 26924 26861 1114 XOR";
"2 1 1114 16970 26736 XOR";
"2 1 26988 26861 13770 XOR";
"2 1 16969 26861 13769 XOR";
"2 1 13770 13769 13768 AND";
"2 1 13768 26861 26862 XOR";
"2 1 26925 26862 1113 XOR";
"2 1 1113 16971 26737 XOR";
"2 1 26989 26862 13767 XOR";
"2 1 16970 26862 13766 XOR";
"2 1 13767 13766 13765 AND";
"2 1 13765 26862 26863 XOR";
"2 1 26926 26863 1112 XOR";
"2 1 1112 16972 26738 XOR";
"2 1 26990 26863 13764 XOR";
"2 1 16971 26863 13763 XOR";
"2 1 13764 13763 13762 AND";
"2 1 13762 26863 26864 XOR";
"2 1 26927 26864 1111 XOR";
"2 1 1111 16973 26739 XOR";
"2 1 26991 26864 13761 XOR";
"2 1 16972 26864 13760 XOR";
"2 1 13761 13760 13759 AND";
"2 1 13759 26864 26865 XOR";
"2 1 26928 26865 1110 XOR";
"2 1 1110 16974 26740 XOR";
"2 1 26992 26865 13758 XOR";
"2 1 16973 26865 13757 XOR";
"2 1 13758 13757 13756 AND";
"2 1 13756 26865 26866 XOR";
"2 1 26929 26866 1109 XOR";
"2 1 1109 16975 26741 XOR";
"2 1 26993 26866 13755 XOR";
"2 1 16974 26866 13754 XOR";
"2 1 13755 13754 13753 AND";
"2 1 13753 26866 26867 XOR";
"2 1 26930 26867 1108 XOR";
"2 1 1108 16976 26742 XOR";
"2 1 26994 26867 13752 XOR";
"2 1 16975 26867 13751 XOR";
"2 1 13752 13751 13750 AND";
"2 1 13750 26867 26868 XOR";
"2 1 26931 26868 1107 XOR";
"2 1 1107 16977 26743 XOR";
"2 1 26995 26868 13749 XOR";
"2 1 16976 26868 13748 XOR";
"2 1 13749 13748 13747 AND";
"2 1 13747 26868 26869 XOR";
"2 1 26932 26869 1106 XOR";
"2 1 1106 16978 26744 XOR";
"2 1 26996 26869 13746 XOR";
"2 1 16977 26869 13745 XOR";
"2 1 13746 13745 13744 AND";
"2 1 13744 26869 26870 XOR";
"2 1 26933 26870 1105 XOR";
"2 1 1105 16979 26745 XOR";
"2 1 26997 26870 13743 XOR";
"2 1 16978 26870 13742 XOR";
"2 1 13743 13742 13741 AND";
"2 1 13741 26870 26871 XOR";
"2 1 26934 26871 1104 XOR";
"2 1 1104 16980 26746 XOR";
"2 1 26998 26871 13740 XOR";
"2 1 16979 26871 13739 XOR";
"2 1 13740 13739 13738 AND";
"2 1 13738 26871 26872 XOR";
"2 1 26935 26872 1103 XOR";
"2 1 1103 16981 26747 XOR";
"2 1 26999 26872 13737 XOR";
"2 1 16980 26872 13736 XOR";
"2 1 13737 13736 13735 AND";
"2 1 13735 26872 26873 XOR";
"2 1 26936 26873 1102 XOR";
"2 1 1102 16982 26748 XOR";
"2 1 27000 26873 13734 XOR";
"2 1 16981 26873 13733 XOR";
"2 1 13734 13733 13732 AND";
"2 1 13732 26873 26874 XOR";
"2 1 26937 26874 1101 XOR";
"2 1 1101 16983 26749 XOR";
"2 1 27001 26874 13731 XOR";
"2 1 16982 26874 13730 XOR";
"2 1 13731 13730 13729 AND";
"2 1 13729 26874 26875 XOR";
"2 1 26938 26875 1100 XOR";
"2 1 1100 16984 26750 XOR";
"2 1 27002 26875 13728 XOR";
"2 1 16983 26875 13727 XOR";
"2 1 13728 13727 13726 AND";
"2 1 13726 26875 26876 XOR";
"2 1 26939 26876 1099 XOR";
"2 1 1099 16985 26751 XOR";
"2 1 27003 26876 13725 XOR";
"2 1 16984 26876 13724 XOR";
"2 1 13725 13724 13723 AND";
"2 1 13723 26876 26877 XOR";
"2 1 26940 26877 1098 XOR";
"2 1 1098 16986 26752 XOR";
"2 1 27004 26877 13722 XOR";
"2 1 16985 26877 13721 XOR";
"2 1 13722 13721 13720 AND";
"2 1 13720 26877 26878 XOR";
"2 1 26941 26878 1097 XOR";
"2 1 1097 16987 26753 XOR";
"2 1 27005 26878 13719 XOR";
"2 1 16986 26878 13718 XOR";
"2 1 13719 13718 13717 AND";
"2 1 13717 26878 26879 XOR";
"2 1 26942 26879 1096 XOR";
"2 1 1096 16988 26754 XOR";
"2 1 27006 26879 13716 XOR";
"2 1 16987 26879 13715 XOR";
"2 1 13716 13715 13714 AND";
"2 1 13714 26879 26880 XOR";
"2 1 26943 26880 1095 XOR";
"2 1 1095 16989 26755 XOR";
"2 1 27007 26880 13713 XOR";
"2 1 16988 26880 13712 XOR";
"2 1 13713 13712 13711 AND";
"2 1 13711 26880 26881 XOR";
"2 1 26944 26881 1094 XOR";
"2 1 1094 16990 26756 XOR";
"2 1 27008 26881 13710 XOR";
"2 1 16989 26881 13709 XOR";
"2 1 13710 13709 13708 AND";
"2 1 13708 26881 26882 XOR";
"2 1 26945 26882 1093 XOR";
"2 1 1093 16991 26757 XOR";
"2 1 27009 26882 13707 XOR";
"2 1 16990 26882 13706 XOR";
"2 1 13707 13706 13705 AND";
"2 1 13705 26882 26883 XOR";
"2 1 26946 26883 1092 XOR";
"2 1 1092 16992 26758 XOR";
"2 1 27010 26883 13704 XOR";
"2 1 16991 26883 13703 XOR";
"2 1 13704 13703 13702 AND";
"2 1 13702 26883 26884 XOR";
"2 1 26947 26884 1091 XOR";
"2 1 1091 16993 26759 XOR";
"2 1 27011 26884 13701 XOR";
"2 1 16992 26884 13700 XOR";
"2 1 13701 13700 13699 AND";
"2 1 13699 26884 26885 XOR";
"2 1 26948 26885 1090 XOR";
"2 1 1090 16994 26760 XOR";
"2 1 27012 26885 13698 XOR";
"2 1 16993 26885 13697 XOR";
"2 1 13698 13697 13696 AND";
"2 1 13696 26885 26886 XOR";
"2 1 26949 26886 1089 XOR";
"2 1 1089 16995 26761 XOR";
"2 1 27013 26886 13695 XOR";
"2 1 16994 26886 13694 XOR";
"2 1 13695 13694 13693 AND";
"2 1 13693 26886 26887 XOR";
"2 1 26950 26887 1088 XOR";
"2 1 1088 16996 26762 XOR";
"2 1 27014 26887 13692 XOR";
"2 1 16995 26887 13691 XOR";
"2 1 13692 13691 13690 AND";
"2 1 13690 26887 26888 XOR";
"2 1 26951 26888 1087 XOR";
"2 1 1087 16997 26763 XOR";
"2 1 27015 26888 13689 XOR";
"2 1 16996 26888 13688 XOR";
"2 1 13689 13688 13687 AND";
"2 1 13687 26888 26889 XOR";
"2 1 26952 26889 1086 XOR";
"2 1 1086 16998 26764 XOR";
"2 1 27016 26889 13686 XOR";
"2 1 16997 26889 13685 XOR";
"2 1 13686 13685 13684 AND";
"2 1 13684 26889 26890 XOR";
"2 1 26953 26890 1085 XOR";
"2 1 1085 16999 26765 XOR";
"2 1 27017 26890 13683 XOR";
"2 1 16998 26890 13682 XOR";
"2 1 13683 13682 13681 AND";
"2 1 13681 26890 26891 XOR";
"2 1 26954 26891 1084 XOR";
"2 1 1084 17000 26766 XOR";
"2 1 27018 26891 13680 XOR";
"2 1 16999 26891 13679 XOR";
"2 1 13680 13679 13678 AND";
"2 1 13678 26891 26892 XOR";
"2 1 26955 26892 1083 XOR";
"2 1 1083 17001 26767 XOR";
"2 1 27019 26892 13677 XOR";
"2 1 17000 26892 13676 XOR";
"2 1 13677 13676 13675 AND";
"2 1 13675 26892 26893 XOR";
"2 1 26956 26893 1082 XOR";
"2 1 1082 17002 26768 XOR";
"2 1 27020 26893 13674 XOR";
"2 1 17001 26893 13673 XOR";
"2 1 13674 13673 13672 AND";
"2 1 13672 26893 26894 XOR";
"2 1 26957 26894 1081 XOR";
"2 1 1081 17003 26769 XOR";
"2 1 27021 26894 13671 XOR";
"2 1 17002 26894 13670 XOR";
"2 1 13671 13670 13669 AND";
"2 1 13669 26894 26895 XOR";
"2 1 26958 26895 1080 XOR";
"2 1 1080 17004 26770 XOR";
"2 1 27022 26895 13668 XOR";
"2 1 17003 26895 13667 XOR";
"2 1 13668 13667 13666 AND";
"2 1 13666 26895 26896 XOR";
"2 1 26959 26896 1079 XOR";
"2 1 1079 17005 26771 XOR";
"2 1 27023 26896 13665 XOR";
"2 1 17004 26896 13664 XOR";
"2 1 13665 13664 13663 AND";
"2 1 13663 26896 26897 XOR";
"2 1 26960 26897 1078 XOR";
"2 1 1078 17006 26772 XOR";
"2 1 27024 26897 13662 XOR";
"2 1 17005 26897 13661 XOR";
"2 1 13662 13661 13660 AND";
"2 1 13660 26897 26898 XOR";
"2 1 26961 26898 1077 XOR";
"2 1 1077 17007 26773 XOR";
"2 1 27025 26898 13659 XOR";
"2 1 17006 26898 13658 XOR";
"2 1 13659 13658 13657 AND";
"2 1 13657 26898 26899 XOR";
"2 1 26962 26899 1076 XOR";
"2 1 1076 17008 26774 XOR";
"2 1 27026 26899 13656 XOR";
"2 1 17007 26899 13655 XOR";
"2 1 13656 13655 13654 AND";
"2 1 13654 26899 26900 XOR";
"2 1 26963 26900 1075 XOR";
"2 1 1075 17009 26775 XOR";
"2 1 27027 26900 13653 XOR";
"2 1 17008 26900 13652 XOR";
"2 1 13653 13652 13651 AND";
"2 1 13651 26900 26901 XOR";
"2 1 26964 26901 144 XOR";
"1 1 144 16678 INV";
"2 1 16867 16678 26776 XOR";
"2 1 1137 16678 26777 XOR";
"2 1 1136 16678 26778 XOR";
"2 1 1135 16678 26779 XOR";
"2 1 1134 16678 26780 XOR";
"2 1 1133 16678 26781 XOR";
"2 1 1132 16678 26782 XOR";
"2 1 1131 16678 26783 XOR";
"2 1 1130 16678 26784 XOR";
"2 1 1129 16678 26785 XOR";
"2 1 1128 16678 26786 XOR";
"2 1 1127 16678 26787 XOR";
"2 1 1126 16678 26788 XOR";
"2 1 1125 16678 26789 XOR";
"2 1 1124 16678 26790 XOR";
"2 1 1123 16678 26791 XOR";
"2 1 1122 16678 26792 XOR";
"2 1 1121 16678 26793 XOR";
"2 1 1120 16678 26794 XOR";
"2 1 1119 16678 26795 XOR";
"2 1 1118 16678 26796 XOR";
"2 1 1117 16678 26797 XOR";
"2 1 1116 16678 26798 XOR";
"2 1 1115 16678 26799 XOR";
"2 1 1114 16678 26800 XOR";
"2 1 1113 16678 26801 XOR";
"2 1 1112 16678 26802 XOR";
"2 1 1111 16678 26803 XOR";
"2 1 1110 16678 26804 XOR";
"2 1 1109 16678 26805 XOR";
"2 1 1108 16678 26806 XOR";
"2 1 1107 16678 26807 XOR";
"2 1 1106 16678 26808 XOR";
"2 1 1105 16678 26809 XOR";
"2 1 1104 16678 26810 XOR";
"2 1 1103 16678 26811 XOR";
"2 1 1102 16678 26812 XOR";
"2 1 1101 16678 26813 XOR";
"2 1 1100 16678 26814 XOR";
"2 1 1099 16678 26815 XOR";
"2 1 1098 16678 26816 XOR";
"2 1 1097 16678 26817 XOR";
"2 1 1096 16678 26818 XOR";
"2 1 1095 16678 26819 XOR";
"2 1 1094 16678 26820 XOR";
"2 1 1093 16678 26821 XOR";
"2 1 1092 16678 26822 XOR";
"2 1 1091 16678 26823 XOR";
"2 1 1090 16678 26824 XOR";
"2 1 1089 16678 26825 XOR";
"2 1 1088 16678 26826 XOR";
"2 1 1087 16678 26827 XOR";
"2 1 1086 16678 26828 XOR";
"2 1 1085 16678 26829 XOR";
"2 1 1084 16678 26830 XOR";
"2 1 1083 16678 26831 XOR";
"2 1 1082 16678 26832 XOR";
"2 1 1081 16678 26833 XOR";
"2 1 1080 16678 26834 XOR";
"2 1 1079 16678 26835 XOR";
"2 1 1078 16678 26836 XOR";
"2 1 1077 16678 26837 XOR";
"2 1 1076 16678 26838 XOR";
"2 1 26776 16946 26650 AND";
"2 1 26713 26650 1199 XOR";
"2 1 1199 16948 26525 XOR";
"2 1 26777 26650 13650 XOR";
"2 1 16947 26650 13649 XOR";
"2 1 13650 13649 13648 AND";
"2 1 13648 26650 26651 XOR";
"2 1 26714 26651 1198 XOR";
"2 1 1198 16949 26526 XOR";
"2 1 26778 26651 13647 XOR";
"2 1 16948 26651 13646 XOR";
"2 1 13647 13646 13645 AND";
"2 1 13645 26651 26652 XOR";
"2 1 26715 26652 1197 XOR";
"2 1 1197 16950 26527 XOR";
"2 1 26779 26652 13644 XOR";
"2 1 16949 26652 13643 XOR";
"2 1 13644 13643 13642 AND";
"2 1 13642 26652 26653 XOR";
"2 1 26716 26653 1196 XOR";
"2 1 1196 16951 26528 XOR";
"2 1 26780 26653 13641 XOR";
"2 1 16950 26653 13640 XOR";
"2 1 13641 13640 13639 AND";
"2 1 13639 26653 26654 XOR";
"2 1 26717 26654 1195 XOR";
"2 1 1195 16952 26529 XOR";
"2 1 26781 26654 13638 XOR";
"2 1 16951 26654 13637 XOR";
"2 1 13638 13637 13636 AND";
"2 1 13636 26654 26655 XOR";
"2 1 26718 26655 1194 XOR";
"2 1 1194 16953 26530 XOR";
"2 1 26782 26655 13635 XOR";
"2 1 16952 26655 13634 XOR";
"2 1 13635 13634 13633 AND";
"2 1 13633 26655 26656 XOR";
"2 1 26719 26656 1193 XOR";
"2 1 1193 16954 26531 XOR";
"2 1 26783 26656 13632 XOR";
"2 1 16953 26656 13631 XOR";
"2 1 13632 13631 13630 AND";
"2 1 13630 26656 26657 XOR";
"2 1 26720 26657 1192 XOR";
"2 1 1192 16955 26532 XOR";
"2 1 26784 26657 13629 XOR";
"2 1 16954 26657 13628 XOR";
"2 1 13629 13628 13627 AND";
"2 1 13627 26657 26658 XOR";
"2 1 26721 26658 1191 XOR";
"2 1 1191 16956 26533 XOR";
"2 1 26785 26658 13626 XOR";
"2 1 16955 26658 13625 XOR";
"2 1 13626 13625 13624 AND";
"2 1 13624 26658 26659 XOR";
"2 1 26722 26659 1190 XOR";
"2 1 1190 16957 26534 XOR";
"2 1 26786 26659 13623 XOR";
"2 1 16956 26659 13622 XOR";
"2 1 13623 13622 13621 AND";
"2 1 13621 26659 26660 XOR";
"2 1 26723 26660 1189 XOR";
"2 1 1189 16958 26535 XOR";
"2 1 26787 26660 13620 XOR";
"2 1 16957 26660 13619 XOR";
"2 1 13620 13619 13618 AND";
"2 1 13618 26660 26661 XOR";
"2 1 26724 26661 1188 XOR";
"2 1 1188 16959 26536 XOR";
"2 1 26788 26661 13617 XOR";
"2 1 16958 26661 13616 XOR";
"2 1 13617 13616 13615 AND";
"2 1 13615 26661 26662 XOR";
"2 1 26725 26662 1187 XOR";
"2 1 1187 16960 26537 XOR";
"2 1 26789 26662 13614 XOR";
"2 1 16959 26662 13613 XOR";
"2 1 13614 13613 13612 AND";
"2 1 13612 26662 26663 XOR";
"2 1 26726 26663 1186 XOR";
"2 1 1186 16961 26538 XOR";
"2 1 26790 26663 13611 XOR";
"2 1 16960 26663 13610 XOR";
"2 1 13611 13610 13609 AND";
"2 1 13609 26663 26664 XOR";
"2 1 26727 26664 1185 XOR";
"2 1 1185 16962 26539 XOR";
"2 1 26791 26664 13608 XOR";
"2 1 16961 26664 13607 XOR";
"2 1 13608 13607 13606 AND";
"2 1 13606 26664 26665 XOR";
"2 1 26728 26665 1184 XOR";
"2 1 1184 16963 26540 XOR";
"2 1 26792 26665 13605 XOR";
"2 1 16962 26665 13604 XOR";
"2 1 13605 13604 13603 AND";
"2 1 13603 26665 26666 XOR";
"2 1 26729 26666 1183 XOR";
"2 1 1183 16964 26541 XOR";
"2 1 26793 26666 13602 XOR";
"2 1 16963 26666 13601 XOR";
"2 1 13602 13601 13600 AND";
"2 1 13600 26666 26667 XOR";
"2 1 26730 26667 1182 XOR";
"2 1 1182 16965 26542 XOR";
"2 1 26794 26667 13599 XOR";
"2 1 16964 26667 13598 XOR";
"2 1 13599 13598 13597 AND";
"2 1 13597 26667 26668 XOR";
"2 1 26731 26668 1181 XOR";
"2 1 1181 16966 26543 XOR";
"2 1 26795 26668 13596 XOR";
"2 1 16965 26668 13595 XOR";
"2 1 13596 13595 13594 AND";
"2 1 13594 26668 26669 XOR";
"2 1 26732 26669 1180 XOR";
"2 1 1180 16967 26544 XOR";
"2 1 26796 26669 13593 XOR";
"2 1 16966 26669 13592 XOR";
"2 1 13593 13592 13591 AND";
"2 1 13591 26669 26670 XOR";
"2 1 26733 26670 1179 XOR";
"2 1 1179 16968 26545 XOR";
"2 1 26797 26670 13590 XOR";
"2 1 16967 26670 13589 XOR";
"2 1 13590 13589 13588 AND";
"2 1 13588 26670 26671 XOR";
"2 1 26734 26671 1178 XOR";
"2 1 1178 16969 26546 XOR";
"2 1 26798 26671 13587 XOR";
"2 1 16968 26671 13586 XOR";
"2 1 13587 13586 13585 AND";
"2 1 13585 26671 26672 XOR";
"2 1 26735 26672 1177 XOR";
"2 1 1177 16970 26547 XOR";
"2 1 26799 26672 13584 XOR";
"2 1 16969 26672 13583 XOR";
"2 1 13584 13583 13582 AND";
"2 1 13582 26672 26673 XOR";
"2 1 26736 26673 1176 XOR";
"2 1 1176 16971 26548 XOR";
"2 1 26800 26673 13581 XOR";
"2 1 16970 26673 13580 XOR";
"2 1 13581 13580 13579 AND";
"2 1 13579 26673 26674 XOR";
"2 1 26737 26674 1175 XOR";
"2 1 1175 16972 26549 XOR";
"2 1 26801 26674 13578 XOR";
"2 1 16971 26674 13577 XOR";
"2 1 13578 13577 13576 AND";
"2 1 13576 26674 26675 XOR";
"2 1 26738 26675 1174 XOR";
"2 1 1174 16973 26550 XOR";
"2 1 26802 26675 13575 XOR";
"2 1 16972 26675 13574 XOR";
"2 1 13575 13574 13573 AND";
"2 1 13573 26675 26676 XOR";
"2 1 26739 26676 1173 XOR";
"2 1 1173 16974 26551 XOR";
"2 1 26803 26676 13572 XOR";
"2 1 16973 26676 13571 XOR";
"2 1 13572 13571 13570 AND";
"2 1 13570 26676 26677 XOR";
"2 1 26740 26677 1172 XOR";
"2 1 1172 16975 26552 XOR";
"2 1 26804 26677 13569 XOR";
"2 1 16974 26677 13568 XOR";
"2 1 13569 13568 13567 AND";
"2 1 13567 26677 26678 XOR";
"2 1 26741 26678 1171 XOR";
"2 1 1171 16976 26553 XOR";
"2 1 26805 26678 13566 XOR";
"2 1 16975 26678 13565 XOR";
"2 1 13566 13565 13564 AND";
"2 1 13564 26678 26679 XOR";
"2 1 26742 26679 1170 XOR";
"2 1 1170 16977 26554 XOR";
"2 1 26806 26679 13563 XOR";
"2 1 16976 26679 13562 XOR";
"2 1 13563 13562 13561 AND";
"2 1 13561 26679 26680 XOR";
"2 1 26743 26680 1169 XOR";
"2 1 1169 16978 26555 XOR";
"2 1 26807 26680 13560 XOR";
"2 1 16977 26680 13559 XOR";
"2 1 13560 13559 13558 AND";
"2 1 13558 26680 26681 XOR";
"2 1 26744 26681 1168 XOR";
"2 1 1168 16979 26556 XOR";
"2 1 26808 26681 13557 XOR";
"2 1 16978 26681 13556 XOR";
"2 1 13557 13556 13555 AND";
"2 1 13555 26681 26682 XOR";
"2 1 26745 26682 1167 XOR";
"2 1 1167 16980 26557 XOR";
"2 1 26809 26682 13554 XOR";
"2 1 16979 26682 13553 XOR";
"2 1 13554 13553 13552 AND";
"2 1 13552 26682 26683 XOR";
"2 1 26746 26683 1166 XOR";
"2 1 1166 16981 26558 XOR";
"2 1 26810 26683 13551 XOR";
"2 1 16980 26683 13550 XOR";
"2 1 13551 13550 13549 AND";
"2 1 13549 26683 26684 XOR";
"2 1 26747 26684 1165 XOR";
"2 1 1165 16982 26559 XOR";
"2 1 26811 26684 13548 XOR";
"2 1 16981 26684 13547 XOR";
"2 1 13548 13547 13546 AND";
"2 1 13546 26684 26685 XOR";
"2 1 26748 26685 1164 XOR";
"2 1 1164 16983 26560 XOR";
"2 1 26812 26685 13545 XOR";
"2 1 16982 26685 13544 XOR";
"2 1 13545 13544 13543 AND";
"2 1 13543 26685 26686 XOR";
"2 1 26749 26686 1163 XOR";
"2 1 1163 16984 26561 XOR";
"2 1 26813 26686 13542 XOR";
"2 1 16983 26686 13541 XOR";
"2 1 13542 13541 13540 AND";
"2 1 13540 26686 26687 XOR";
"2 1 26750 26687 1162 XOR";
"2 1 1162 16985 26562 XOR";
"2 1 26814 26687 13539 XOR";
"2 1 16984 26687 13538 XOR";
"2 1 13539 13538 13537 AND";
"2 1 13537 26687 26688 XOR";
"2 1 26751 26688 1161 XOR";
"2 1 1161 16986 26563 XOR";
"2 1 26815 26688 13536 XOR";
"2 1 16985 26688 13535 XOR";
"2 1 13536 13535 13534 AND";
"2 1 13534 26688 26689 XOR";
"2 1 26752 26689 1160 XOR";
"2 1 1160 16987 26564 XOR";
"2 1 26816 26689 13533 XOR";
"2 1 16986 26689 13532 XOR";
"2 1 13533 13532 13531 AND";
"2 1 13531 26689 26690 XOR";
"2 1 26753 26690 1159 XOR";
"2 1 1159 16988 26565 XOR";
"2 1 26817 26690 13530 XOR";
"2 1 16987 26690 13529 XOR";
"2 1 13530 13529 13528 AND";
"2 1 13528 26690 26691 XOR";
"2 1 26754 26691 1158 XOR";
"2 1 1158 16989 26566 XOR";
"2 1 26818 26691 13527 XOR";
"2 1 16988 26691 13526 XOR";
"2 1 13527 13526 13525 AND";
"2 1 13525 26691 26692 XOR";
"2 1 26755 26692 1157 XOR";
"2 1 1157 16990 26567 XOR";
"2 1 26819 26692 13524 XOR";
"2 1 16989 26692 13523 XOR";
"2 1 13524 13523 13522 AND";
"2 1 13522 26692 26693 XOR";
"2 1 26756 26693 1156 XOR";
"2 1 1156 16991 26568 XOR";
"2 1 26820 26693 13521 XOR";
"2 1 16990 26693 13520 XOR";
"2 1 13521 13520 13519 AND";
"2 1 13519 26693 26694 XOR";
"2 1 26757 26694 1155 XOR";
"2 1 1155 16992 26569 XOR";
"2 1 26821 26694 13518 XOR";
"2 1 16991 26694 13517 XOR";
"2 1 13518 13517 13516 AND";
"2 1 13516 26694 26695 XOR";
"2 1 26758 26695 1154 XOR";
"2 1 1154 16993 26570 XOR";
"2 1 26822 26695 13515 XOR";
"2 1 16992 26695 13514 XOR";
"2 1 13515 13514 13513 AND";
"2 1 13513 26695 26696 XOR";
"2 1 26759 26696 1153 XOR";
"2 1 1153 16994 26571 XOR";
"2 1 26823 26696 13512 XOR";
"2 1 16993 26696 13511 XOR";
"2 1 13512 13511 13510 AND";
"2 1 13510 26696 26697 XOR";
"2 1 26760 26697 1152 XOR";
"2 1 1152 16995 26572 XOR";
"2 1 26824 26697 13509 XOR";
"2 1 16994 26697 13508 XOR";
"2 1 13509 13508 13507 AND";
"2 1 13507 26697 26698 XOR";
"2 1 26761 26698 1151 XOR";
"2 1 1151 16996 26573 XOR";
"2 1 26825 26698 13506 XOR";
"2 1 16995 26698 13505 XOR";
"2 1 13506 13505 13504 AND";
"2 1 13504 26698 26699 XOR";
"2 1 26762 26699 1150 XOR";
"2 1 1150 16997 26574 XOR";
"2 1 26826 26699 13503 XOR";
"2 1 16996 26699 13502 XOR";
"2 1 13503 13502 13501 AND";
"2 1 13501 26699 26700 XOR";
"2 1 26763 26700 1149 XOR";
"2 1 1149 16998 26575 XOR";
"2 1 26827 26700 13500 XOR";
"2 1 16997 26700 13499 XOR";
"2 1 13500 13499 13498 AND";
"2 1 13498 26700 26701 XOR";
"2 1 26764 26701 1148 XOR";
"2 1 1148 16999 26576 XOR";
"2 1 26828 26701 13497 XOR";
"2 1 16998 26701 13496 XOR";
"2 1 13497 13496 13495 AND";
"2 1 13495 26701 26702 XOR";
"2 1 26765 26702 1147 XOR";
"2 1 1147 17000 26577 XOR";
"2 1 26829 26702 13494 XOR";
"2 1 16999 26702 13493 XOR";
"2 1 13494 13493 13492 AND";
"2 1 13492 26702 26703 XOR";
"2 1 26766 26703 1146 XOR";
"2 1 1146 17001 26578 XOR";
"2 1 26830 26703 13491 XOR";
"2 1 17000 26703 13490 XOR";
"2 1 13491 13490 13489 AND";
"2 1 13489 26703 26704 XOR";
"2 1 26767 26704 1145 XOR";
"2 1 1145 17002 26579 XOR";
"2 1 26831 26704 13488 XOR";
"2 1 17001 26704 13487 XOR";
"2 1 13488 13487 13486 AND";
"2 1 13486 26704 26705 XOR";
"2 1 26768 26705 1144 XOR";
"2 1 1144 17003 26580 XOR";
"2 1 26832 26705 13485 XOR";
"2 1 17002 26705 13484 XOR";
"2 1 13485 13484 13483 AND";
"2 1 13483 26705 26706 XOR";
"2 1 26769 26706 1143 XOR";
"2 1 1143 17004 26581 XOR";
"2 1 26833 26706 13482 XOR";
"2 1 17003 26706 13481 XOR";
"2 1 13482 13481 13480 AND";
"2 1 13480 26706 26707 XOR";
"2 1 26770 26707 1142 XOR";
"2 1 1142 17005 26582 XOR";
"2 1 26834 26707 13479 XOR";
"2 1 17004 26707 13478 XOR";
"2 1 13479 13478 13477 AND";
"2 1 13477 26707 26708 XOR";
"2 1 26771 26708 1141 XOR";
"2 1 1141 17006 26583 XOR";
"2 1 26835 26708 13476 XOR";
"2 1 17005 26708 13475 XOR";
"2 1 13476 13475 13474 AND";
"2 1 13474 26708 26709 XOR";
"2 1 26772 26709 1140 XOR";
"2 1 1140 17007 26584 XOR";
"2 1 26836 26709 13473 XOR";
"2 1 17006 26709 13472 XOR";
"2 1 13473 13472 13471 AND";
"2 1 13471 26709 26710 XOR";
"2 1 26773 26710 1139 XOR";
"2 1 1139 17008 26585 XOR";
"2 1 26837 26710 13470 XOR";
"2 1 17007 26710 13469 XOR";
"2 1 13470 13469 13468 AND";
"2 1 13468 26710 26711 XOR";
"2 1 26774 26711 1138 XOR";
"2 1 1138 17009 26586 XOR";
"2 1 26838 26711 13467 XOR";
"2 1 17008 26711 13466 XOR";
"2 1 13467 13466 13465 AND";
"2 1 13465 26711 26712 XOR";
"2 1 26775 26712 145 XOR";
"2 1 16678 4535 17562 AND";
"1 1 145 16677 INV";
"2 1 16866 16677 26587 XOR";
"2 1 1200 16677 26588 XOR";
"2 1 1199 16677 26589 XOR";
"2 1 1198 16677 26590 XOR";
"2 1 1197 16677 26591 XOR";
"2 1 1196 16677 26592 XOR";
"2 1 1195 16677 26593 XOR";
"2 1 1194 16677 26594 XOR";
"2 1 1193 16677 26595 XOR";
"2 1 1192 16677 26596 XOR";
"2 1 1191 16677 26597 XOR";
"2 1 1190 16677 26598 XOR";
"2 1 1189 16677 26599 XOR";
"2 1 1188 16677 26600 XOR";
"2 1 1187 16677 26601 XOR";
"2 1 1186 16677 26602 XOR";
"2 1 1185 16677 26603 XOR";
"2 1 1184 16677 26604 XOR";
"2 1 1183 16677 26605 XOR";
"2 1 1182 16677 26606 XOR";
"2 1 1181 16677 26607 XOR";
"2 1 1180 16677 26608 XOR";
"2 1 1179 16677 26609 XOR";
"2 1 1178 16677 26610 XOR";
"2 1 1177 16677 26611 XOR";
"2 1 1176 16677 26612 XOR";
"2 1 1175 16677 26613 XOR";
"2 1 1174 16677 26614 XOR";
"2 1 1173 16677 26615 XOR";
"2 1 1172 16677 26616 XOR";
"2 1 1171 16677 26617 XOR";
"2 1 1170 16677 26618 XOR";
"2 1 1169 16677 26619 XOR";
"2 1 1168 16677 26620 XOR";
"2 1 1167 16677 26621 XOR";
"2 1 1166 16677 26622 XOR";
"2 1 1165 16677 26623 XOR";
"2 1 1164 16677 26624 XOR";
"2 1 1163 16677 26625 XOR";
"2 1 1162 16677 26626 XOR";
"2 1 1161 16677 26627 XOR";
"2 1 1160 16677 26628 XOR";
"2 1 1159 16677 26629 XOR";
"2 1 1158 16677 26630 XOR";
"2 1 1157 16677 26631 XOR";
"2 1 1156 16677 26632 XOR";
"2 1 1155 16677 26633 XOR";
"2 1 1154 16677 26634 XOR";
"2 1 1153 16677 26635 XOR";
"2 1 1152 16677 26636 XOR";
"2 1 1151 16677 26637 XOR";
"2 1 1150 16677 26638 XOR";
"2 1 1149 16677 26639 XOR";
"2 1 1148 16677 26640 XOR";
"2 1 1147 16677 26641 XOR";
"2 1 1146 16677 26642 XOR";
"2 1 1145 16677 26643 XOR";
"2 1 1144 16677 26644 XOR";
"2 1 1143 16677 26645 XOR";
"2 1 1142 16677 26646 XOR";
"2 1 1141 16677 26647 XOR";
"2 1 1140 16677 26648 XOR";
"2 1 1139 16677 26649 XOR";
"2 1 26587 16946 26461 AND";
"2 1 26524 26461 1262 XOR";
"2 1 1262 16948 26336 XOR";
"2 1 26588 26461 13464 XOR";
"2 1 16947 26461 13463 XOR";
"2 1 13464 13463 13462 AND";
"2 1 13462 26461 26462 XOR";
"2 1 26525 26462 1261 XOR";
"2 1 1261 16949 26337 XOR";
"2 1 26589 26462 13461 XOR";
"2 1 16948 26462 13460 XOR";
"2 1 13461 13460 13459 AND";
"2 1 13459 26462 26463 XOR";
"2 1 26526 26463 1260 XOR";
"2 1 1260 16950 26338 XOR";
"2 1 26590 26463 13458 XOR";
"2 1 16949 26463 13457 XOR";
"2 1 13458 13457 13456 AND";
"2 1 13456 26463 26464 XOR";
"2 1 26527 26464 1259 XOR";
"2 1 1259 16951 26339 XOR";
"2 1 26591 26464 13455 XOR";
"2 1 16950 26464 13454 XOR";
"2 1 13455 13454 13453 AND";
"2 1 13453 26464 26465 XOR";
"2 1 26528 26465 1258 XOR";
"2 1 1258 16952 26340 XOR";
"2 1 26592 26465 13452 XOR";
"2 1 16951 26465 13451 XOR";
"2 1 13452 13451 13450 AND";
"2 1 13450 26465 26466 XOR";
"2 1 26529 26466 1257 XOR";
"2 1 1257 16953 26341 XOR";
"2 1 26593 26466 13449 XOR";
"2 1 16952 26466 13448 XOR";
"2 1 13449 13448 13447 AND";
"2 1 13447 26466 26467 XOR";
"2 1 26530 26467 1256 XOR";
"2 1 1256 16954 26342 XOR";
"2 1 26594 26467 13446 XOR";
"2 1 16953 26467 13445 XOR";
"2 1 13446 13445 13444 AND";
"2 1 13444 26467 26468 XOR";
"2 1 26531 26468 1255 XOR";
"2 1 1255 16955 26343 XOR";
"2 1 26595 26468 13443 XOR";
"2 1 16954 26468 13442 XOR";
"2 1 13443 13442 13441 AND";
"2 1 13441 26468 26469 XOR";
"2 1 26532 26469 1254 XOR";
"2 1 1254 16956 26344 XOR";
"2 1 26596 26469 13440 XOR";
"2 1 16955 26469 13439 XOR";
"2 1 13440 13439 13438 AND";
"2 1 13438 26469 26470 XOR";
"2 1 26533 26470 1253 XOR";
"2 1 1253 16957 26345 XOR";
"2 1 26597 26470 13437 XOR";
"2 1 16956 26470 13436 XOR";
"2 1 13437 13436 13435 AND";
"2 1 13435 26470 26471 XOR";
"2 1 26534 26471 1252 XOR";
"2 1 1252 16958 26346 XOR";
"2 1 26598 26471 13434 XOR";
"2 1 16957 26471 13433 XOR";
"2 1 13434 13433 13432 AND";
"2 1 13432 26471 26472 XOR";
"2 1 26535 26472 1251 XOR";
"2 1 1251 16959 26347 XOR";
"2 1 26599 26472 13431 XOR";
"2 1 16958 26472 13430 XOR";
"2 1 13431 13430 13429 AND";
"2 1 13429 26472 26473 XOR";
"2 1 26536 26473 1250 XOR";
"2 1 1250 16960 26348 XOR";
"2 1 26600 26473 13428 XOR";
"2 1 16959 26473 13427 XOR";
"2 1 13428 13427 13426 AND";
"2 1 13426 26473 26474 XOR";
"2 1 26537 26474 1249 XOR";
"2 1 1249 16961 26349 XOR";
"2 1 26601 26474 13425 XOR";
"2 1 16960 26474 13424 XOR";
"2 1 13425 13424 13423 AND";
"2 1 13423 26474 26475 XOR";
"2 1 26538 26475 1248 XOR";
"2 1 1248 16962 26350 XOR";
"2 1 26602 26475 13422 XOR";
"2 1 16961 26475 13421 XOR";
"2 1 13422 13421 13420 AND";
"2 1 13420 26475 26476 XOR";
"2 1 26539 26476 1247 XOR";
"2 1 1247 16963 26351 XOR";
"2 1 26603 26476 13419 XOR";
"2 1 16962 26476 13418 XOR";
"2 1 13419 13418 13417 AND";
"2 1 13417 26476 26477 XOR";
"2 1 26540 26477 1246 XOR";
"2 1 1246 16964 26352 XOR";
"2 1 26604 26477 13416 XOR";
"2 1 16963 26477 13415 XOR";
"2 1 13416 13415 13414 AND";
"2 1 13414 26477 26478 XOR";
"2 1 26541 26478 1245 XOR";
"2 1 1245 16965 26353 XOR";
"2 1 26605 26478 13413 XOR";
"2 1 16964 26478 13412 XOR";
"2 1 13413 13412 13411 AND";
"2 1 13411 26478 26479 XOR";
"2 1 26542 26479 1244 XOR";
"2 1 1244 16966 26354 XOR";
"2 1 26606 26479 13410 XOR";
"2 1 16965 26479 13409 XOR";
"2 1 13410 13409 13408 AND";
"2 1 13408 26479 26480 XOR";
"2 1 26543 26480 1243 XOR";
"2 1 1243 16967 26355 XOR";
"2 1 26607 26480 13407 XOR";
"2 1 16966 26480 13406 XOR";
"2 1 13407 13406 13405 AND";
"2 1 13405 26480 26481 XOR";
"2 1 26544 26481 1242 XOR";
"2 1 1242 16968 26356 XOR";
"2 1 26608 26481 13404 XOR";
"2 1 16967 26481 13403 XOR";
"2 1 13404 13403 13402 AND";
"2 1 13402 26481 26482 XOR";
"2 1 26545 26482 1241 XOR";
"2 1 1241 16969 26357 XOR";
"2 1 26609 26482 13401 XOR";
"2 1 16968 26482 13400 XOR";
"2 1 13401 13400 13399 AND";
"2 1 13399 26482 26483 XOR";
"2 1 26546 26483 1240 XOR";
"2 1 1240 16970 26358 XOR";
"2 1 26610 26483 13398 XOR";
"2 1 16969 26483 13397 XOR";
"2 1 13398 13397 13396 AND";
"2 1 13396 26483 26484 XOR";
"2 1 26547 26484 1239 XOR";
"2 1 1239 16971 26359 XOR";
"2 1 26611 26484 13395 XOR";
"2 1 16970 26484 13394 XOR";
"2 1 13395 13394 13393 AND";
"2 1 13393 26484 26485 XOR";
"2 1 26548 26485 1238 XOR";
"2 1 1238 16972 26360 XOR";
"2 1 26612 26485 13392 XOR";
"2 1 16971 26485 13391 XOR";
"2 1 13392 13391 13390 AND";
"2 1 13390 26485 26486 XOR";
"2 1 26549 26486 1237 XOR";
"2 1 1237 16973 26361 XOR";
"2 1 26613 26486 13389 XOR";
"2 1 16972 26486 13388 XOR";
"2 1 13389 13388 13387 AND";
"2 1 13387 26486 26487 XOR";
"2 1 26550 26487 1236 XOR";
"2 1 1236 16974 26362 XOR";
"2 1 26614 26487 13386 XOR";
"2 1 16973 26487 13385 XOR";
"2 1 13386 13385 13384 AND";
"2 1 13384 26487 26488 XOR";
"2 1 26551 26488 1235 XOR";
"2 1 1235 16975 26363 XOR";
"2 1 26615 26488 13383 XOR";
"2 1 16974 26488 13382 XOR";
"2 1 13383 13382 13381 AND";
"2 1 13381 26488 26489 XOR";
"2 1 26552 26489 1234 XOR";
"2 1 1234 16976 26364 XOR";
"2 1 26616 26489 13380 XOR";
"2 1 16975 26489 13379 XOR";
"2 1 13380 13379 13378 AND";
"2 1 13378 26489 26490 XOR";
"2 1 26553 26490 1233 XOR";
"2 1 1233 16977 26365 XOR";
"2 1 26617 26490 13377 XOR";
"2 1 16976 26490 13376 XOR";
"2 1 13377 13376 13375 AND";
"2 1 13375 26490 26491 XOR";
"2 1 26554 26491 1232 XOR";
"2 1 1232 16978 26366 XOR";
"2 1 26618 26491 13374 XOR";
"2 1 16977 26491 13373 XOR";
"2 1 13374 13373 13372 AND";
"2 1 13372 26491 26492 XOR";
"2 1 26555 26492 1231 XOR";
"2 1 1231 16979 26367 XOR";
"2 1 26619 26492 13371 XOR";
"2 1 16978 26492 13370 XOR";
"2 1 13371 13370 13369 AND";
"2 1 13369 26492 26493 XOR";
"2 1 26556 26493 1230 XOR";
"2 1 1230 16980 26368 XOR";
"2 1 26620 26493 13368 XOR";
"2 1 16979 26493 13367 XOR";
"2 1 13368 13367 13366 AND";
"2 1 13366 26493 26494 XOR";
"2 1 26557 26494 1229 XOR";
"2 1 1229 16981 26369 XOR";
"2 1 26621 26494 13365 XOR";
"2 1 16980 26494 13364 XOR";
"2 1 13365 13364 13363 AND";
"2 1 13363 26494 26495 XOR";
"2 1 26558 26495 1228 XOR";
"2 1 1228 16982 26370 XOR";
"2 1 26622 26495 13362 XOR";
"2 1 16981 26495 13361 XOR";
"2 1 13362 13361 13360 AND";
"2 1 13360 26495 26496 XOR";
"2 1 26559 26496 1227 XOR";
"2 1 1227 16983 26371 XOR";
"2 1 26623 26496 13359 XOR";
"2 1 16982 26496 13358 XOR";
"2 1 13359 13358 13357 AND";
"2 1 13357 26496 26497 XOR";
"2 1 26560 26497 1226 XOR";
"2 1 1226 16984 26372 XOR";
"2 1 26624 26497 13356 XOR";
"2 1 16983 26497 13355 XOR";
"2 1 13356 13355 13354 AND";
"2 1 13354 26497 26498 XOR";
"2 1 26561 26498 1225 XOR";
"2 1 1225 16985 26373 XOR";
"2 1 26625 26498 13353 XOR";
"2 1 16984 26498 13352 XOR";
"2 1 13353 13352 13351 AND";
"2 1 13351 26498 26499 XOR";
"2 1 26562 26499 1224 XOR";
"2 1 1224 16986 26374 XOR";
"2 1 26626 26499 13350 XOR";
"2 1 16985 26499 13349 XOR";
"2 1 13350 13349 13348 AND";
"2 1 13348 26499 26500 XOR";
"2 1 26563 26500 1223 XOR";
"2 1 1223 16987 26375 XOR";
"2 1 26627 26500 13347 XOR";
"2 1 16986 26500 13346 XOR";
"2 1 13347 13346 13345 AND";
"2 1 13345 26500 26501 XOR";
"2 1 26564 26501 1222 XOR";
"2 1 1222 16988 26376 XOR";
"2 1 26628 26501 13344 XOR";
"2 1 16987 26501 13343 XOR";
"2 1 13344 13343 13342 AND";
"2 1 13342 26501 26502 XOR";
"2 1 26565 26502 1221 XOR";
"2 1 1221 16989 26377 XOR";
"2 1 26629 26502 13341 XOR";
"2 1 16988 26502 13340 XOR";
"2 1 13341 13340 13339 AND";
"2 1 13339 26502 26503 XOR";
"2 1 26566 26503 1220 XOR";
"2 1 1220 16990 26378 XOR";
"2 1 26630 26503 13338 XOR";
"2 1 16989 26503 13337 XOR";
"2 1 13338 13337 13336 AND";
"2 1 13336 26503 26504 XOR";
"2 1 26567 26504 1219 XOR";
"2 1 1219 16991 26379 XOR";
"2 1 26631 26504 13335 XOR";
"2 1 16990 26504 13334 XOR";
"2 1 13335 13334 13333 AND";
"2 1 13333 26504 26505 XOR";
"2 1 26568 26505 1218 XOR";
"2 1 1218 16992 26380 XOR";
"2 1 26632 26505 13332 XOR";
"2 1 16991 26505 13331 XOR";
"2 1 13332 13331 13330 AND";
"2 1 13330 26505 26506 XOR";
"2 1 26569 26506 1217 XOR";
"2 1 1217 16993 26381 XOR";
"2 1 26633 26506 13329 XOR";
"2 1 16992 26506 13328 XOR";
"2 1 13329 13328 13327 AND";
"2 1 13327 26506 26507 XOR";
"2 1 26570 26507 1216 XOR";
"2 1 1216 16994 26382 XOR";
"2 1 26634 26507 13326 XOR";
"2 1 16993 26507 13325 XOR";
"2 1 13326 13325 13324 AND";
"2 1 13324 26507 26508 XOR";
"2 1 26571 26508 1215 XOR";
"2 1 1215 16995 26383 XOR";
"2 1 26635 26508 13323 XOR";
"2 1 16994 26508 13322 XOR";
"2 1 13323 13322 13321 AND";
"2 1 13321 26508 26509 XOR";
"2 1 26572 26509 1214 XOR";
"2 1 1214 16996 26384 XOR";
"2 1 26636 26509 13320 XOR";
"2 1 16995 26509 13319 XOR";
"2 1 13320 13319 13318 AND";
"2 1 13318 26509 26510 XOR";
"2 1 26573 26510 1213 XOR";
"2 1 1213 16997 26385 XOR";
"2 1 26637 26510 13317 XOR";
"2 1 16996 26510 13316 XOR";
"2 1 13317 13316 13315 AND";
"2 1 13315 26510 26511 XOR";
"2 1 26574 26511 1212 XOR";
"2 1 1212 16998 26386 XOR";
"2 1 26638 26511 13314 XOR";
"2 1 16997 26511 13313 XOR";
"2 1 13314 13313 13312 AND";
"2 1 13312 26511 26512 XOR";
"2 1 26575 26512 1211 XOR";
"2 1 1211 16999 26387 XOR";
"2 1 26639 26512 13311 XOR";
"2 1 16998 26512 13310 XOR";
"2 1 13311 13310 13309 AND";
"2 1 13309 26512 26513 XOR";
"2 1 26576 26513 1210 XOR";
"2 1 1210 17000 26388 XOR";
"2 1 26640 26513 13308 XOR";
"2 1 16999 26513 13307 XOR";
"2 1 13308 13307 13306 AND";
"2 1 13306 26513 26514 XOR";
"2 1 26577 26514 1209 XOR";
"2 1 1209 17001 26389 XOR";
"2 1 26641 26514 13305 XOR";
"2 1 17000 26514 13304 XOR";
"2 1 13305 13304 13303 AND";
"2 1 13303 26514 26515 XOR";
"2 1 26578 26515 1208 XOR";
"2 1 1208 17002 26390 XOR";
"2 1 26642 26515 13302 XOR";
"2 1 17001 26515 13301 XOR";
"2 1 13302 13301 13300 AND";
"2 1 13300 26515 26516 XOR";
"2 1 26579 26516 1207 XOR";
"2 1 1207 17003 26391 XOR";
"2 1 26643 26516 13299 XOR";
"2 1 17002 26516 13298 XOR";
"2 1 13299 13298 13297 AND";
"2 1 13297 26516 26517 XOR";
"2 1 26580 26517 1206 XOR";
"2 1 1206 17004 26392 XOR";
"2 1 26644 26517 13296 XOR";
"2 1 17003 26517 13295 XOR";
"2 1 13296 13295 13294 AND";
"2 1 13294 26517 26518 XOR";
"2 1 26581 26518 1205 XOR";
"2 1 1205 17005 26393 XOR";
"2 1 26645 26518 13293 XOR";
"2 1 17004 26518 13292 XOR";
"2 1 13293 13292 13291 AND";
"2 1 13291 26518 26519 XOR";
"2 1 26582 26519 1204 XOR";
"2 1 1204 17006 26394 XOR";
"2 1 26646 26519 13290 XOR";
"2 1 17005 26519 13289 XOR";
"2 1 13290 13289 13288 AND";
"2 1 13288 26519 26520 XOR";
"2 1 26583 26520 1203 XOR";
"2 1 1203 17007 26395 XOR";
"2 1 26647 26520 13287 XOR";
"2 1 17006 26520 13286 XOR";
"2 1 13287 13286 13285 AND";
"2 1 13285 26520 26521 XOR";
"2 1 26584 26521 1202 XOR";
"2 1 1202 17008 26396 XOR";
"2 1 26648 26521 13284 XOR";
"2 1 17007 26521 13283 XOR";
"2 1 13284 13283 13282 AND";
"2 1 13282 26521 26522 XOR";
"2 1 26585 26522 1201 XOR";
"2 1 1201 17009 26397 XOR";
"2 1 26649 26522 13281 XOR";
"2 1 17008 26522 13280 XOR";
"2 1 13281 13280 13279 AND";
"2 1 13279 26522 26523 XOR";
"2 1 26586 26523 146 XOR";
"1 1 146 16676 INV";
"2 1 16865 16676 26398 XOR";
"2 1 1263 16676 26399 XOR";
"2 1 1262 16676 26400 XOR";
"2 1 1261 16676 26401 XOR";
"2 1 1260 16676 26402 XOR";
"2 1 1259 16676 26403 XOR";
"2 1 1258 16676 26404 XOR";
"2 1 1257 16676 26405 XOR";
"2 1 1256 16676 26406 XOR";
"2 1 1255 16676 26407 XOR";
"2 1 1254 16676 26408 XOR";
"2 1 1253 16676 26409 XOR";
"2 1 1252 16676 26410 XOR";
"2 1 1251 16676 26411 XOR";
"2 1 1250 16676 26412 XOR";
"2 1 1249 16676 26413 XOR";
"2 1 1248 16676 26414 XOR";
"2 1 1247 16676 26415 XOR";
"2 1 1246 16676 26416 XOR";
"2 1 1245 16676 26417 XOR";
"2 1 1244 16676 26418 XOR";
"2 1 1243 16676 26419 XOR";
"2 1 1242 16676 26420 XOR";
"2 1 1241 16676 26421 XOR";
"2 1 1240 16676 26422 XOR";
"2 1 1239 16676 26423 XOR";
"2 1 1238 16676 26424 XOR";
"2 1 1237 16676 26425 XOR";
"2 1 1236 16676 26426 XOR";
"2 1 1235 16676 26427 XOR";
"2 1 1234 16676 26428 XOR";
"2 1 1233 16676 26429 XOR";
"2 1 1232 16676 26430 XOR";
"2 1 1231 16676 26431 XOR";
"2 1 1230 16676 26432 XOR";
"2 1 1229 16676 26433 XOR";
"2 1 1228 16676 26434 XOR";
"2 1 1227 16676 26435 XOR";
"2 1 1226 16676 26436 XOR";
"2 1 1225 16676 26437 XOR";
"2 1 1224 16676 26438 XOR";
"2 1 1223 16676 26439 XOR";
"2 1 1222 16676 26440 XOR";
"2 1 1221 16676 26441 XOR";
"2 1 1220 16676 26442 XOR";
"2 1 1219 16676 26443 XOR";
"2 1 1218 16676 26444 XOR";
"2 1 1217 16676 26445 XOR";
"2 1 1216 16676 26446 XOR";
"2 1 1215 16676 26447 XOR";
"2 1 1214 16676 26448 XOR";
"2 1 1213 16676 26449 XOR";
"2 1 1212 16676 26450 XOR";
"2 1 1211 16676 26451 XOR";
"2 1 1210 16676 26452 XOR";
"2 1 1209 16676 26453 XOR";
"2 1 1208 16676 26454 XOR";
"2 1 1207 16676 26455 XOR";
"2 1 1206 16676 26456 XOR";
"2 1 1205 16676 26457 XOR";
"2 1 1204 16676 26458 XOR";
"2 1 1203 16676 26459 XOR";
"2 1 1202 16676 26460 XOR";
"2 1 26398 16946 26272 AND";
"2 1 26335 26272 1325 XOR";
"2 1 1325 16948 26147 XOR";
"2 1 26399 26272 13278 XOR";
"2 1 16947 26272 13277 XOR";
"2 1 13278 13277 13276 AND";
"2 1 13276 26272 26273 XOR";
"2 1 26336 26273 1324 XOR";
"2 1 1324 16949 26148 XOR";
"2 1 26400 26273 13275 XOR";
"2 1 16948 26273 13274 XOR";
"2 1 13275 13274 13273 AND";
"2 1 13273 26273 26274 XOR";
"2 1 26337 26274 1323 XOR";
"2 1 1323 16950 26149 XOR";
"2 1 26401 26274 13272 XOR";
"2 1 16949 26274 13271 XOR";
"2 1 13272 13271 13270 AND";
"2 1 13270 26274 26275 XOR";
"2 1 26338 26275 1322 XOR";
"2 1 1322 16951 26150 XOR";
"2 1 26402 26275 13269 XOR";
"2 1 16950 26275 13268 XOR";
"2 1 13269 13268 13267 AND";
"2 1 13267 26275 26276 XOR";
"2 1 26339 26276 1321 XOR";
"2 1 1321 16952 26151 XOR";
"2 1 26403 26276 13266 XOR";
"2 1 16951 26276 13265 XOR";
"2 1 13266 13265 13264 AND";
"2 1 13264 26276 26277 XOR";
"2 1 26340 26277 1320 XOR";
"2 1 1320 16953 26152 XOR";
"2 1 26404 26277 13263 XOR";
"2 1 16952 26277 13262 XOR";
"2 1 13263 13262 13261 AND";
"2 1 13261 26277 26278 XOR";
"2 1 26341 26278 1319 XOR";
"2 1 1319 16954 26153 XOR";
"2 1 26405 26278 13260 XOR";
"2 1 16953 26278 13259 XOR";
"2 1 13260 13259 13258 AND";
"2 1 13258 26278 26279 XOR";
"2 1 26342 26279 1318 XOR";
"2 1 1318 16955 26154 XOR";
"2 1 26406 26279 13257 XOR";
"2 1 16954 26279 13256 XOR";
"2 1 13257 13256 13255 AND";
"2 1 13255 26279 26280 XOR";
"2 1 26343 26280 1317 XOR";
"2 1 1317 16956 26155 XOR";
"2 1 26407 26280 13254 XOR";
"2 1 16955 26280 13253 XOR";
"2 1 13254 13253 13252 AND";
"2 1 13252 26280 26281 XOR";
"2 1 26344 26281 1316 XOR";
"2 1 1316 16957 26156 XOR";
"2 1 26408 26281 13251 XOR";
"2 1 16956 26281 13250 XOR";
"2 1 13251 13250 13249 AND";
"2 1 13249 26281 26282 XOR";
"2 1 26345 26282 1315 XOR";
"2 1 1315 16958 26157 XOR";
"2 1 26409 26282 13248 XOR";
"2 1 16957 26282 13247 XOR";
"2 1 13248 13247 13246 AND";
"2 1 13246 26282 26283 XOR";
"2 1 26346 26283 1314 XOR";
"2 1 1314 16959 26158 XOR";
"2 1 26410 26283 13245 XOR";
"2 1 16958 26283 13244 XOR";
"2 1 13245 13244 13243 AND";
"2 1 13243 26283 26284 XOR";
"2 1 26347 26284 1313 XOR";
"2 1 1313 16960 26159 XOR";
"2 1 26411 26284 13242 XOR";
"2 1 16959 26284 13241 XOR";
"2 1 13242 13241 13240 AND";
"2 1 13240 26284 26285 XOR";
"2 1 26348 26285 1312 XOR";
"2 1 1312 16961 26160 XOR";
"2 1 26412 26285 13239 XOR";
"2 1 16960 26285 13238 XOR";
"2 1 13239 13238 13237 AND";
"2 1 13237 26285 26286 XOR";
"2 1 26349 26286 1311 XOR";
"2 1 1311 16962 26161 XOR";
"2 1 26413 26286 13236 XOR";
"2 1 16961 26286 13235 XOR";
"2 1 13236 13235 13234 AND";
"2 1 13234 26286 26287 XOR";
"2 1 26350 26287 1310 XOR";
"2 1 1310 16963 26162 XOR";
"2 1 26414 26287 13233 XOR";
"2 1 16962 26287 13232 XOR";
"2 1 13233 13232 13231 AND";
"2 1 13231 26287 26288 XOR";
"2 1 26351 26288 1309 XOR";
"2 1 1309 16964 26163 XOR";
"2 1 26415 26288 13230 XOR";
"2 1 16963 26288 13229 XOR";
"2 1 13230 13229 13228 AND";
"2 1 13228 26288 26289 XOR";
"2 1 26352 26289 1308 XOR";
"2 1 1308 16965 26164 XOR";
"2 1 26416 26289 13227 XOR";
"2 1 16964 26289 13226 XOR";
"2 1 13227 13226 13225 AND";
"2 1 13225 26289 26290 XOR";
"2 1 26353 26290 1307 XOR";
"2 1 1307 16966 26165 XOR";
"2 1 26417 26290 13224 XOR";
"2 1 16965 26290 13223 XOR";
"2 1 13224 13223 13222 AND";
"2 1 13222 26290 26291 XOR";
"2 1 26354 26291 1306 XOR";
"2 1 1306 16967 26166 XOR";
"2 1 26418 26291 13221 XOR";
"2 1 16966 26291 13220 XOR";
"2 1 13221 13220 13219 AND";
"2 1 13219 26291 26292 XOR";
"2 1 26355 26292 1305 XOR";
"2 1 1305 16968 26167 XOR";
"2 1 26419 26292 13218 XOR";
"2 1 16967 26292 13217 XOR";
"2 1 13218 13217 13216 AND";
"2 1 13216 26292 26293 XOR";
"2 1 26356 26293 1304 XOR";
"2 1 1304 16969 26168 XOR";
"2 1 26420 26293 13215 XOR";
"2 1 16968 26293 13214 XOR";
"2 1 13215 13214 13213 AND";
"2 1 13213 26293 26294 XOR";
"2 1 26357 26294 1303 XOR";
"2 1 1303 16970 26169 XOR";
"2 1 26421 26294 13212 XOR";
"2 1 16969 26294 13211 XOR";
"2 1 13212 13211 13210 AND";
"2 1 13210 26294 26295 XOR";
"2 1 26358 26295 1302 XOR";
"2 1 1302 16971 26170 XOR";
"2 1 26422 26295 13209 XOR";
"2 1 16970 26295 13208 XOR";
"2 1 13209 13208 13207 AND";
"2 1 13207 26295 26296 XOR";
"2 1 26359 26296 1301 XOR";
"2 1 1301 16972 26171 XOR";
"2 1 26423 26296 13206 XOR";
"2 1 16971 26296 13205 XOR";
"2 1 13206 13205 13204 AND";
"2 1 13204 26296 26297 XOR";
"2 1 26360 26297 1300 XOR";
"2 1 1300 16973 26172 XOR";
"2 1 26424 26297 13203 XOR";
"2 1 16972 26297 13202 XOR";
"2 1 13203 13202 13201 AND";
"2 1 13201 26297 26298 XOR";
"2 1 26361 26298 1299 XOR";
"2 1 1299 16974 26173 XOR";
"2 1 26425 26298 13200 XOR";
"2 1 16973 26298 13199 XOR";
"2 1 13200 13199 13198 AND";
"2 1 13198 26298 26299 XOR";
"2 1 26362 26299 1298 XOR";
"2 1 1298 16975 26174 XOR";
"2 1 26426 26299 13197 XOR";
"2 1 16974 26299 13196 XOR";
"2 1 13197 13196 13195 AND";
"2 1 13195 26299 26300 XOR";
"2 1 26363 26300 1297 XOR";
"2 1 1297 16976 26175 XOR";
"2 1 26427 26300 13194 XOR";
"2 1 16975 26300 13193 XOR";
"2 1 13194 13193 13192 AND";
"2 1 13192 26300 26301 XOR";
"2 1 26364 26301 1296 XOR";
"2 1 1296 16977 26176 XOR";
"2 1 26428 26301 13191 XOR";
"2 1 16976 26301 13190 XOR";
"2 1 13191 13190 13189 AND";
"2 1 13189 26301 26302 XOR";
"2 1 26365 26302 1295 XOR";
"2 1 1295 16978 26177 XOR";
"2 1 26429 26302 13188 XOR";
"2 1 16977 26302 13187 XOR";
"2 1 13188 13187 13186 AND";
"2 1 13186 26302 26303 XOR";
"2 1 26366 26303 1294 XOR";
"2 1 1294 16979 26178 XOR";
"2 1 26430 26303 13185 XOR";
"2 1 16978 26303 13184 XOR";
"2 1 13185 13184 13183 AND";
"2 1 13183 26303 26304 XOR";
"2 1 26367 26304 1293 XOR";
"2 1 1293 16980 26179 XOR";
"2 1 26431 26304 13182 XOR";
"2 1 16979 26304 13181 XOR";
"2 1 13182 13181 13180 AND";
"2 1 13180 26304 26305 XOR";
"2 1 26368 26305 1292 XOR";
"2 1 1292 16981 26180 XOR";
"2 1 26432 26305 13179 XOR";
"2 1 16980 26305 13178 XOR";
"2 1 13179 13178 13177 AND";
"2 1 13177 26305 26306 XOR";
"2 1 26369 26306 1291 XOR";
"2 1 1291 16982 26181 XOR";
"2 1 26433 26306 13176 XOR";
"2 1 16981 26306 13175 XOR";
"2 1 13176 13175 13174 AND";
"2 1 13174 26306 26307 XOR";
"2 1 26370 26307 1290 XOR";
"2 1 1290 16983 26182 XOR";
"2 1 26434 26307 13173 XOR";
"2 1 16982 26307 13172 XOR";
"2 1 13173 13172 13171 AND";
"2 1 13171 26307 26308 XOR";
"2 1 26371 26308 1289 XOR";
"2 1 1289 16984 26183 XOR";
"2 1 26435 26308 13170 XOR";
"2 1 16983 26308 13169 XOR";
"2 1 13170 13169 13168 AND";
"2 1 13168 26308 26309 XOR";
"2 1 26372 26309 1288 XOR";
"2 1 1288 16985 26184 XOR";
"2 1 26436 26309 13167 XOR";
"2 1 16984 26309 13166 XOR";
"2 1 13167 13166 13165 AND";
"2 1 13165 26309 26310 XOR";
"2 1 26373 26310 1287 XOR";
"2 1 1287 16986 26185 XOR";
"2 1 26437 26310 13164 XOR";
"2 1 16985 26310 13163 XOR";
"2 1 13164 13163 13162 AND";
"2 1 13162 26310 26311 XOR";
"2 1 26374 26311 1286 XOR";
"2 1 1286 16987 26186 XOR";
"2 1 26438 26311 13161 XOR";
"2 1 16986 26311 13160 XOR";
"2 1 13161 13160 13159 AND";
"2 1 13159 26311 26312 XOR";
"2 1 26375 26312 1285 XOR";
"2 1 1285 16988 26187 XOR";
"2 1 26439 26312 13158 XOR";
"2 1 16987 26312 13157 XOR";
"2 1 13158 13157 13156 AND";
"2 1 13156 26312 26313 XOR";
"2 1 26376 26313 1284 XOR";
"2 1 1284 16989 26188 XOR";
"2 1 26440 26313 13155 XOR";
"2 1 16988 26313 13154 XOR";
"2 1 13155 13154 13153 AND";
"2 1 13153 26313 26314 XOR";
"2 1 26377 26314 1283 XOR";
"2 1 1283 16990 26189 XOR";
"2 1 26441 26314 13152 XOR";
"2 1 16989 26314 13151 XOR";
"2 1 13152 13151 13150 AND";
"2 1 13150 26314 26315 XOR";
"2 1 26378 26315 1282 XOR";
"2 1 1282 16991 26190 XOR";
"2 1 26442 26315 13149 XOR";
"2 1 16990 26315 13148 XOR";
"2 1 13149 13148 13147 AND";
"2 1 13147 26315 26316 XOR";
"2 1 26379 26316 1281 XOR";
"2 1 1281 16992 26191 XOR";
"2 1 26443 26316 13146 XOR";
"2 1 16991 26316 13145 XOR";
"2 1 13146 13145 13144 AND";
"2 1 13144 26316 26317 XOR";
"2 1 26380 26317 1280 XOR";
"2 1 1280 16993 26192 XOR";
"2 1 26444 26317 13143 XOR";
"2 1 16992 26317 13142 XOR";
"2 1 13143 13142 13141 AND";
"2 1 13141 26317 26318 XOR";
"2 1 26381 26318 1279 XOR";
"2 1 1279 16994 26193 XOR";
"2 1 26445 26318 13140 XOR";
"2 1 16993 26318 13139 XOR";
"2 1 13140 13139 13138 AND";
"2 1 13138 26318 26319 XOR";
"2 1 26382 26319 1278 XOR";
"2 1 1278 16995 26194 XOR";
"2 1 26446 26319 13137 XOR";
"2 1 16994 26319 13136 XOR";
"2 1 13137 13136 13135 AND";
"2 1 13135 26319 26320 XOR";
"2 1 26383 26320 1277 XOR";
"2 1 1277 16996 26195 XOR";
"2 1 26447 26320 13134 XOR";
"2 1 16995 26320 13133 XOR";
"2 1 13134 13133 13132 AND";
"2 1 13132 26320 26321 XOR";
"2 1 26384 26321 1276 XOR";
"2 1 1276 16997 26196 XOR";
"2 1 26448 26321 13131 XOR";
"2 1 16996 26321 13130 XOR";
"2 1 13131 13130 13129 AND";
"2 1 13129 26321 26322 XOR";
"2 1 26385 26322 1275 XOR";
"2 1 1275 16998 26197 XOR";
"2 1 26449 26322 13128 XOR";
"2 1 16997 26322 13127 XOR";
"2 1 13128 13127 13126 AND";
"2 1 13126 26322 26323 XOR";
"2 1 26386 26323 1274 XOR";
"2 1 1274 16999 26198 XOR";
"2 1 26450 26323 13125 XOR";
"2 1 16998 26323 13124 XOR";
"2 1 13125 13124 13123 AND";
"2 1 13123 26323 26324 XOR";
"2 1 26387 26324 1273 XOR";
"2 1 1273 17000 26199 XOR";
"2 1 26451 26324 13122 XOR";
"2 1 16999 26324 13121 XOR";
"2 1 13122 13121 13120 AND";
"2 1 13120 26324 26325 XOR";
"2 1 26388 26325 1272 XOR";
"2 1 1272 17001 26200 XOR";
"2 1 26452 26325 13119 XOR";
"2 1 17000 26325 13118 XOR";
"2 1 13119 13118 13117 AND";
"2 1 13117 26325 26326 XOR";
"2 1 26389 26326 1271 XOR";
"2 1 1271 17002 26201 XOR";
"2 1 26453 26326 13116 XOR";
"2 1 17001 26326 13115 XOR";
"2 1 13116 13115 13114 AND";
"2 1 13114 26326 26327 XOR";
"2 1 26390 26327 1270 XOR";
"2 1 1270 17003 26202 XOR";
"2 1 26454 26327 13113 XOR";
"2 1 17002 26327 13112 XOR";
"2 1 13113 13112 13111 AND";
"2 1 13111 26327 26328 XOR";
"2 1 26391 26328 1269 XOR";
"2 1 1269 17004 26203 XOR";
"2 1 26455 26328 13110 XOR";
"2 1 17003 26328 13109 XOR";
"2 1 13110 13109 13108 AND";
"2 1 13108 26328 26329 XOR";
"2 1 26392 26329 1268 XOR";
"2 1 1268 17005 26204 XOR";
"2 1 26456 26329 13107 XOR";
"2 1 17004 26329 13106 XOR";
"2 1 13107 13106 13105 AND";
"2 1 13105 26329 26330 XOR";
"2 1 26393 26330 1267 XOR";
"2 1 1267 17006 26205 XOR";
"2 1 26457 26330 13104 XOR";
"2 1 17005 26330 13103 XOR";
"2 1 13104 13103 13102 AND";
"2 1 13102 26330 26331 XOR";
"2 1 26394 26331 1266 XOR";
"2 1 1266 17007 26206 XOR";
"2 1 26458 26331 13101 XOR";
"2 1 17006 26331 13100 XOR";
"2 1 13101 13100 13099 AND";
"2 1 13099 26331 26332 XOR";
"2 1 26395 26332 1265 XOR";
"2 1 1265 17008 26207 XOR";
"2 1 26459 26332 13098 XOR";
"2 1 17007 26332 13097 XOR";
"2 1 13098 13097 13096 AND";
"2 1 13096 26332 26333 XOR";
"2 1 26396 26333 1264 XOR";
"2 1 1264 17009 26208 XOR";
"2 1 26460 26333 13095 XOR";
"2 1 17008 26333 13094 XOR";
"2 1 13095 13094 13093 AND";
"2 1 13093 26333 26334 XOR";
"2 1 26397 26334 147 XOR";
"2 1 16676 4535 17560 AND";
"1 1 147 16675 INV";
"2 1 16864 16675 26209 XOR";
"2 1 1326 16675 26210 XOR";
"2 1 1325 16675 26211 XOR";
"2 1 1324 16675 26212 XOR";
"2 1 1323 16675 26213 XOR";
"2 1 1322 16675 26214 XOR";
"2 1 1321 16675 26215 XOR";
"2 1 1320 16675 26216 XOR";
"2 1 1319 16675 26217 XOR";
"2 1 1318 16675 26218 XOR";
"2 1 1317 16675 26219 XOR";
"2 1 1316 16675 26220 XOR";
"2 1 1315 16675 26221 XOR";
"2 1 1314 16675 26222 XOR";
"2 1 1313 16675 26223 XOR";
"2 1 1312 16675 26224 XOR";
"2 1 1311 16675 26225 XOR";
"2 1 1310 16675 26226 XOR";
"2 1 1309 16675 26227 XOR";
"2 1 1308 16675 26228 XOR";
"2 1 1307 16675 26229 XOR";
"2 1 1306 16675 26230 XOR";
"2 1 1305 16675 26231 XOR";
"2 1 1304 16675 26232 XOR";
"2 1 1303 16675 26233 XOR";
"2 1 1302 16675 26234 XOR";
"2 1 1301 16675 26235 XOR";
"2 1 1300 16675 26236 XOR";
"2 1 1299 16675 26237 XOR";
"2 1 1298 16675 26238 XOR";
"2 1 1297 16675 26239 XOR";
"2 1 1296 16675 26240 XOR";
"2 1 1295 16675 26241 XOR";
"2 1 1294 16675 26242 XOR";
"2 1 1293 16675 26243 XOR";
"2 1 1292 16675 26244 XOR";
"2 1 1291 16675 26245 XOR";
"2 1 1290 16675 26246 XOR";
"2 1 1289 16675 26247 XOR";
"2 1 1288 16675 26248 XOR";
"2 1 1287 16675 26249 XOR";
"2 1 1286 16675 26250 XOR";
"2 1 1285 16675 26251 XOR";
"2 1 1284 16675 26252 XOR";
"2 1 1283 16675 26253 XOR";
"2 1 1282 16675 26254 XOR";
"2 1 1281 16675 26255 XOR";
"2 1 1280 16675 26256 XOR";
"2 1 1279 16675 26257 XOR";
"2 1 1278 16675 26258 XOR";
"2 1 1277 16675 26259 XOR";
"2 1 1276 16675 26260 XOR";
"2 1 1275 16675 26261 XOR";
"2 1 1274 16675 26262 XOR";
"2 1 1273 16675 26263 XOR";
"2 1 1272 16675 26264 XOR";
"2 1 1271 16675 26265 XOR";
"2 1 1270 16675 26266 XOR";
"2 1 1269 16675 26267 XOR";
"2 1 1268 16675 26268 XOR";
"2 1 1267 16675 26269 XOR";
"2 1 1266 16675 26270 XOR";
"2 1 1265 16675 26271 XOR";
"2 1 26209 16946 26083 AND";
"2 1 26146 26083 1388 XOR";
"2 1 1388 16948 25958 XOR";
"2 1 26210 26083 13092 XOR";
"2 1 16947 26083 13091 XOR";
"2 1 13092 13091 13090 AND";
"2 1 13090 26083 26084 XOR";
"2 1 26147 26084 1387 XOR";
"2 1 1387 16949 25959 XOR";
"2 1 26211 26084 13089 XOR";
"2 1 16948 26084 13088 XOR";
"2 1 13089 13088 13087 AND";
"2 1 13087 26084 26085 XOR";
"2 1 26148 26085 1386 XOR";
"2 1 1386 16950 25960 XOR";
"2 1 26212 26085 13086 XOR";
"2 1 16949 26085 13085 XOR";
"2 1 13086 13085 13084 AND";
"2 1 13084 26085 26086 XOR";
"2 1 26149 26086 1385 XOR";
"2 1 1385 16951 25961 XOR";
"2 1 26213 26086 13083 XOR";
"2 1 16950 26086 13082 XOR";
"2 1 13083 13082 13081 AND";
"2 1 13081 26086 26087 XOR";
"2 1 26150 26087 1384 XOR";
"2 1 1384 16952 25962 XOR";
"2 1 26214 26087 13080 XOR";
"2 1 16951 26087 13079 XOR";
"2 1 13080 13079 13078 AND";
"2 1 13078 26087 26088 XOR";
"2 1 26151 26088 1383 XOR";
"2 1 1383 16953 25963 XOR";
"2 1 26215 26088 13077 XOR";
"2 1 16952 26088 13076 XOR";
"2 1 13077 13076 13075 AND";
"2 1 13075 26088 26089 XOR";
"2 1 26152 26089 1382 XOR";
"2 1 1382 16954 25964 XOR";
"2 1 26216 26089 13074 XOR";
"2 1 16953 26089 13073 XOR";
"2 1 13074 13073 13072 AND";
"2 1 13072 26089 26090 XOR";
"2 1 26153 26090 1381 XOR";
"2 1 1381 16955 25965 XOR";
"2 1 26217 26090 13071 XOR";
"2 1 16954 26090 13070 XOR";
"2 1 13071 13070 13069 AND";
"2 1 13069 26090 26091 XOR";
"2 1 26154 26091 1380 XOR";
"2 1 1380 16956 25966 XOR";
"2 1 26218 26091 13068 XOR";
"2 1 16955 26091 13067 XOR";
"2 1 13068 13067 13066 AND";
"2 1 13066 26091 26092 XOR";
"2 1 26155 26092 1379 XOR";
"2 1 1379 16957 25967 XOR";
"2 1 26219 26092 13065 XOR";
"2 1 16956 26092 13064 XOR";
"2 1 13065 13064 13063 AND";
"2 1 13063 26092 26093 XOR";
"2 1 26156 26093 1378 XOR";
"2 1 1378 16958 25968 XOR";
"2 1 26220 26093 13062 XOR";
"2 1 16957 26093 13061 XOR";
"2 1 13062 13061 13060 AND";
"2 1 13060 26093 26094 XOR";
"2 1 26157 26094 1377 XOR";
"2 1 1377 16959 25969 XOR";
"2 1 26221 26094 13059 XOR";
"2 1 16958 26094 13058 XOR";
"2 1 13059 13058 13057 AND";
"2 1 13057 26094 26095 XOR";
"2 1 26158 26095 1376 XOR";
"2 1 1376 16960 25970 XOR";
"2 1 26222 26095 13056 XOR";
"2 1 16959 26095 13055 XOR";
"2 1 13056 13055 13054 AND";
"2 1 13054 26095 26096 XOR";
"2 1 26159 26096 1375 XOR";
"2 1 1375 16961 25971 XOR";
"2 1 26223 26096 13053 XOR";
"2 1 16960 26096 13052 XOR";
"2 1 13053 13052 13051 AND";
"2 1 13051 26096 26097 XOR";
"2 1 26160 26097 1374 XOR";
"2 1 1374 16962 25972 XOR";
"2 1 26224 26097 13050 XOR";
"2 1 16961 26097 13049 XOR";
"2 1 13050 13049 13048 AND";
"2 1 13048 26097 26098 XOR";
"2 1 26161 26098 1373 XOR";
"2 1 1373 16963 25973 XOR";
"2 1 26225 26098 13047 XOR";
"2 1 16962 26098 13046 XOR";
"2 1 13047 13046 13045 AND";
"2 1 13045 26098 26099 XOR";
"2 1 26162 26099 1372 XOR";
"2 1 1372 16964 25974 XOR";
"2 1 26226 26099 13044 XOR";
"2 1 16963 26099 13043 XOR";
"2 1 13044 13043 13042 AND";
"2 1 13042 26099 26100 XOR";
"2 1 26163 26100 1371 XOR";
"2 1 1371 16965 25975 XOR";
"2 1 26227 26100 13041 XOR";
"2 1 16964 26100 13040 XOR";
"2 1 13041 13040 13039 AND";
"2 1 13039 26100 26101 XOR";
"2 1 26164 26101 1370 XOR";
"2 1 1370 16966 25976 XOR";
"2 1 26228 26101 13038 XOR";
"2 1 16965 26101 13037 XOR";
"2 1 13038 13037 13036 AND";
"2 1 13036 26101 26102 XOR";
"2 1 26165 26102 1369 XOR";
"2 1 1369 16967 25977 XOR";
"2 1 26229 26102 13035 XOR";
"2 1 16966 26102 13034 XOR";
"2 1 13035 13034 13033 AND";
"2 1 13033 26102 26103 XOR";
"2 1 26166 26103 1368 XOR";
"2 1 1368 16968 25978 XOR";
"2 1 26230 26103 13032 XOR";
"2 1 16967 26103 13031 XOR";
"2 1 13032 13031 13030 AND";
"2 1 13030 26103 26104 XOR";
"2 1 26167 26104 1367 XOR";
"2 1 1367 16969 25979 XOR";
"2 1 26231 26104 13029 XOR";
"2 1 16968 26104 13028 XOR";
"2 1 13029 13028 13027 AND";
"2 1 13027 26104 26105 XOR";
"2 1 26168 26105 1366 XOR";
"2 1 1366 16970 25980 XOR";
"2 1 26232 26105 13026 XOR";
"2 1 16969 26105 13025 XOR";
"2 1 13026 13025 13024 AND";
"2 1 13024 26105 26106 XOR";
"2 1 26169 26106 1365 XOR";
"2 1 1365 16971 25981 XOR";
"2 1 26233 26106 13023 XOR";
"2 1 16970 26106 13022 XOR";
"2 1 13023 13022 13021 AND";
"2 1 13021 26106 26107 XOR";
"2 1 26170 26107 1364 XOR";
"2 1 1364 16972 25982 XOR";
"2 1 26234 26107 13020 XOR";
"2 1 16971 26107 13019 XOR";
"2 1 13020 13019 13018 AND";
"2 1 13018 26107 26108 XOR";
"2 1 26171 26108 1363 XOR";
"2 1 1363 16973 25983 XOR";
"2 1 26235 26108 13017 XOR";
"2 1 16972 26108 13016 XOR";
"2 1 13017 13016 13015 AND";
"2 1 13015 26108 26109 XOR";
"2 1 26172 26109 1362 XOR";
"2 1 1362 16974 25984 XOR";
"2 1 26236 26109 13014 XOR";
"2 1 16973 26109 13013 XOR";
"2 1 13014 13013 13012 AND";
"2 1 13012 26109 26110 XOR";
"2 1 26173 26110 1361 XOR";
"2 1 1361 16975 25985 XOR";
"2 1 26237 26110 13011 XOR";
"2 1 16974 26110 13010 XOR";
"2 1 13011 13010 13009 AND";
"2 1 13009 26110 26111 XOR";
"2 1 26174 26111 1360 XOR";
"2 1 1360 16976 25986 XOR";
"2 1 26238 26111 13008 XOR";
"2 1 16975 26111 13007 XOR";
"2 1 13008 13007 13006 AND";
"2 1 13006 26111 26112 XOR";
"2 1 26175 26112 1359 XOR";
"2 1 1359 16977 25987 XOR";
"2 1 26239 26112 13005 XOR";
"2 1 16976 26112 13004 XOR";
"2 1 13005 13004 13003 AND";
"2 1 13003 26112 26113 XOR";
"2 1 26176 26113 1358 XOR";
"2 1 1358 16978 25988 XOR";
"2 1 26240 26113 13002 XOR";
"2 1 16977 26113 13001 XOR";
"2 1 13002 13001 13000 AND";
"2 1 13000 26113 26114 XOR";
"2 1 26177 26114 1357 XOR";
"2 1 1357 16979 25989 XOR";
"2 1 26241 26114 12999 XOR";
"2 1 16978 26114 12998 XOR";
"2 1 12999 12998 12997 AND";
"2 1 12997 26114 26115 XOR";
"2 1 26178 26115 1356 XOR";
"2 1 1356 16980 25990 XOR";
"2 1 26242 26115 12996 XOR";
"2 1 16979 26115 12995 XOR";
"2 1 12996 12995 12994 AND";
"2 1 12994 26115 26116 XOR";
"2 1 26179 26116 1355 XOR";
"2 1 1355 16981 25991 XOR";
"2 1 26243 26116 12993 XOR";
"2 1 16980 26116 12992 XOR";
"2 1 12993 12992 12991 AND";
"2 1 12991 26116 26117 XOR";
"2 1 26180 26117 1354 XOR";
"2 1 1354 16982 25992 XOR";
"2 1 26244 26117 12990 XOR";
"2 1 16981 26117 12989 XOR";
"2 1 12990 12989 12988 AND";
"2 1 12988 26117 26118 XOR";
"2 1 26181 26118 1353 XOR";
"2 1 1353 16983 25993 XOR";
"2 1 26245 26118 12987 XOR";
"2 1 16982 26118 12986 XOR";
"2 1 12987 12986 12985 AND";
"2 1 12985 26118 26119 XOR";
"2 1 26182 26119 1352 XOR";
"2 1 1352 16984 25994 XOR";
"2 1 26246 26119 12984 XOR";
"2 1 16983 26119 12983 XOR";
"2 1 12984 12983 12982 AND";
"2 1 12982 26119 26120 XOR";
"2 1 26183 26120 1351 XOR";
"2 1 1351 16985 25995 XOR";
"2 1 26247 26120 12981 XOR";
"2 1 16984 26120 12980 XOR";
"2 1 12981 12980 12979 AND";
"2 1 12979 26120 26121 XOR";
"2 1 26184 26121 1350 XOR";
"2 1 1350 16986 25996 XOR";
"2 1 26248 26121 12978 XOR";
"2 1 16985 26121 12977 XOR";
"2 1 12978 12977 12976 AND";
"2 1 12976 26121 26122 XOR";
"2 1 26185 26122 1349 XOR";
"2 1 1349 16987 25997 XOR";
"2 1 26249 26122 12975 XOR";
"2 1 16986 26122 12974 XOR";
"2 1 12975 12974 12973 AND";
"2 1 12973 26122 26123 XOR";
"2 1 26186 26123 1348 XOR";
"2 1 1348 16988 25998 XOR";
"2 1 26250 26123 12972 XOR";
"2 1 16987 26123 12971 XOR";
"2 1 12972 12971 12970 AND";
"2 1 12970 26123 26124 XOR";
"2 1 26187 26124 1347 XOR";
"2 1 1347 16989 25999 XOR";
"2 1 26251 26124 12969 XOR";
"2 1 16988 26124 12968 XOR";
"2 1 12969 12968 12967 AND";
"2 1 12967 26124 26125 XOR";
"2 1 26188 26125 1346 XOR";
"2 1 1346 16990 26000 XOR";
"2 1 26252 26125 12966 XOR";
"2 1 16989 26125 12965 XOR";
"2 1 12966 12965 12964 AND";
"2 1 12964 26125 26126 XOR";
"2 1 26189 26126 1345 XOR";
"2 1 1345 16991 26001 XOR";
"2 1 26253 26126 12963 XOR";
"2 1 16990 26126 12962 XOR";
"2 1 12963 12962 12961 AND";
"2 1 12961 26126 26127 XOR";
"2 1 26190 26127 1344 XOR";
"2 1 1344 16992 26002 XOR";
"2 1 26254 26127 12960 XOR";
"2 1 16991 26127 12959 XOR";
"2 1 12960 12959 12958 AND";
"2 1 12958 26127 26128 XOR";
"2 1 26191 26128 1343 XOR";
"2 1 1343 16993 26003 XOR";
"2 1 26255 26128 12957 XOR";
"2 1 16992 26128 12956 XOR";
"2 1 12957 12956 12955 AND";
"2 1 12955 26128 26129 XOR";
"2 1 26192 26129 1342 XOR";
"2 1 1342 16994 26004 XOR";
"2 1 26256 26129 12954 XOR";
"2 1 16993 26129 12953 XOR";
"2 1 12954 12953 12952 AND";
"2 1 12952 26129 26130 XOR";
"2 1 26193 26130 1341 XOR";
"2 1 1341 16995 26005 XOR";
"2 1 26257 26130 12951 XOR";
"2 1 16994 26130 12950 XOR";
"2 1 12951 12950 12949 AND";
"2 1 12949 26130 26131 XOR";
"2 1 26194 26131 1340 XOR";
"2 1 1340 16996 26006 XOR";
"2 1 26258 26131 12948 XOR";
"2 1 16995 26131 12947 XOR";
"2 1 12948 12947 12946 AND";
"2 1 12946 26131 26132 XOR";
"2 1 26195 26132 1339 XOR";
"2 1 1339 16997 26007 XOR";
"2 1 26259 26132 12945 XOR";
"2 1 16996 26132 12944 XOR";
"2 1 12945 12944 12943 AND";
"2 1 12943 26132 26133 XOR";
"2 1 26196 26133 1338 XOR";
"2 1 1338 16998 26008 XOR";
"2 1 26260 26133 12942 XOR";
"2 1 16997 26133 12941 XOR";
"2 1 12942 12941 12940 AND";
"2 1 12940 26133 26134 XOR";
"2 1 26197 26134 1337 XOR";
"2 1 1337 16999 26009 XOR";
"2 1 26261 26134 12939 XOR";
"2 1 16998 26134 12938 XOR";
"2 1 12939 12938 12937 AND";
"2 1 12937 26134 26135 XOR";
"2 1 26198 26135 1336 XOR";
"2 1 1336 17000 26010 XOR";
"2 1 26262 26135 12936 XOR";
"2 1 16999 26135 12935 XOR";
"2 1 12936 12935 12934 AND";
"2 1 12934 26135 26136 XOR";
"2 1 26199 26136 1335 XOR";
"2 1 1335 17001 26011 XOR";
"2 1 26263 26136 12933 XOR";
"2 1 17000 26136 12932 XOR";
"2 1 12933 12932 12931 AND";
"2 1 12931 26136 26137 XOR";
"2 1 26200 26137 1334 XOR";
"2 1 1334 17002 26012 XOR";
"2 1 26264 26137 12930 XOR";
"2 1 17001 26137 12929 XOR";
"2 1 12930 12929 12928 AND";
"2 1 12928 26137 26138 XOR";
"2 1 26201 26138 1333 XOR";
"2 1 1333 17003 26013 XOR";
"2 1 26265 26138 12927 XOR";
"2 1 17002 26138 12926 XOR";
"2 1 12927 12926 12925 AND";
"2 1 12925 26138 26139 XOR";
"2 1 26202 26139 1332 XOR";
"2 1 1332 17004 26014 XOR";
"2 1 26266 26139 12924 XOR";
"2 1 17003 26139 12923 XOR";
"2 1 12924 12923 12922 AND";
"2 1 12922 26139 26140 XOR";
"2 1 26203 26140 1331 XOR";
"2 1 1331 17005 26015 XOR";
"2 1 26267 26140 12921 XOR";
"2 1 17004 26140 12920 XOR";
"2 1 12921 12920 12919 AND";
"2 1 12919 26140 26141 XOR";
"2 1 26204 26141 1330 XOR";
"2 1 1330 17006 26016 XOR";
"2 1 26268 26141 12918 XOR";
"2 1 17005 26141 12917 XOR";
"2 1 12918 12917 12916 AND";
"2 1 12916 26141 26142 XOR";
"2 1 26205 26142 1329 XOR";
"2 1 1329 17007 26017 XOR";
"2 1 26269 26142 12915 XOR";
"2 1 17006 26142 12914 XOR";
"2 1 12915 12914 12913 AND";
"2 1 12913 26142 26143 XOR";
"2 1 26206 26143 1328 XOR";
"2 1 1328 17008 26018 XOR";
"2 1 26270 26143 12912 XOR";
"2 1 17007 26143 12911 XOR";
"2 1 12912 12911 12910 AND";
"2 1 12910 26143 26144 XOR";
"2 1 26207 26144 1327 XOR";
"2 1 1327 17009 26019 XOR";
"2 1 26271 26144 12909 XOR";
"2 1 17008 26144 12908 XOR";
"2 1 12909 12908 12907 AND";
"2 1 12907 26144 26145 XOR";
"2 1 26208 26145 148 XOR";
"1 1 148 16674 INV";
"2 1 16863 16674 26020 XOR";
"2 1 1389 16674 26021 XOR";
"2 1 1388 16674 26022 XOR";
"2 1 1387 16674 26023 XOR";
"2 1 1386 16674 26024 XOR";
"2 1 1385 16674 26025 XOR";
"2 1 1384 16674 26026 XOR";
"2 1 1383 16674 26027 XOR";
"2 1 1382 16674 26028 XOR";
"2 1 1381 16674 26029 XOR";
"2 1 1380 16674 26030 XOR";
"2 1 1379 16674 26031 XOR";
"2 1 1378 16674 26032 XOR";
"2 1 1377 16674 26033 XOR";
"2 1 1376 16674 26034 XOR";
"2 1 1375 16674 26035 XOR";
"2 1 1374 16674 26036 XOR";
"2 1 1373 16674 26037 XOR";
"2 1 1372 16674 26038 XOR";
"2 1 1371 16674 26039 XOR";
"2 1 1370 16674 26040 XOR";
"2 1 1369 16674 26041 XOR";
"2 1 1368 16674 26042 XOR";
"2 1 1367 16674 26043 XOR";
"2 1 1366 16674 26044 XOR";
"2 1 1365 16674 26045 XOR";
"2 1 1364 16674 26046 XOR";
"2 1 1363 16674 26047 XOR";
"2 1 1362 16674 26048 XOR";
"2 1 1361 16674 26049 XOR";
"2 1 1360 16674 26050 XOR";
"2 1 1359 16674 26051 XOR";
"2 1 1358 16674 26052 XOR";
"2 1 1357 16674 26053 XOR";
"2 1 1356 16674 26054 XOR";
"2 1 1355 16674 26055 XOR";
"2 1 1354 16674 26056 XOR";
"2 1 1353 16674 26057 XOR";
"2 1 1352 16674 26058 XOR";
"2 1 1351 16674 26059 XOR";
"2 1 1350 16674 26060 XOR";
"2 1 1349 16674 26061 XOR";
"2 1 1348 16674 26062 XOR";
"2 1 1347 16674 26063 XOR";
"2 1 1346 16674 26064 XOR";
"2 1 1345 16674 26065 XOR";
"2 1 1344 16674 26066 XOR";
"2 1 1343 16674 26067 XOR";
"2 1 1342 16674 26068 XOR";
"2 1 1341 16674 26069 XOR";
"2 1 1340 16674 26070 XOR";
"2 1 1339 16674 26071 XOR";
"2 1 1338 16674 26072 XOR";
"2 1 1337 16674 26073 XOR";
"2 1 1336 16674 26074 XOR";
"2 1 1335 16674 26075 XOR";
"2 1 1334 16674 26076 XOR";
"2 1 1333 16674 26077 XOR";
"2 1 1332 16674 26078 XOR";
"2 1 1331 16674 26079 XOR";
"2 1 1330 16674 26080 XOR";
"2 1 1329 16674 26081 XOR";
"2 1 1328 16674 26082 XOR";
"2 1 26020 16946 25894 AND";
"2 1 25957 25894 1451 XOR";
"2 1 1451 16948 25769 XOR";
"2 1 26021 25894 12906 XOR";
"2 1 16947 25894 12905 XOR";
"2 1 12906 12905 12904 AND";
"2 1 12904 25894 25895 XOR";
"2 1 25958 25895 1450 XOR";
"2 1 1450 16949 25770 XOR";
"2 1 26022 25895 12903 XOR";
"2 1 16948 25895 12902 XOR";
"2 1 12903 12902 12901 AND";
"2 1 12901 25895 25896 XOR";
"2 1 25959 25896 1449 XOR";
"2 1 1449 16950 25771 XOR";
"2 1 26023 25896 12900 XOR";
"2 1 16949 25896 12899 XOR";
"2 1 12900 12899 12898 AND";
"2 1 12898 25896 25897 XOR";
"2 1 25960 25897 1448 XOR";
"2 1 1448 16951 25772 XOR";
"2 1 26024 25897 12897 XOR";
"2 1 16950 25897 12896 XOR";
"2 1 12897 12896 12895 AND";
"2 1 12895 25897 25898 XOR";
"2 1 25961 25898 1447 XOR";
"2 1 1447 16952 25773 XOR";
"2 1 26025 25898 12894 XOR";
"2 1 16951 25898 12893 XOR";
"2 1 12894 12893 12892 AND";
"2 1 12892 25898 25899 XOR";
"2 1 25962 25899 1446 XOR";
"2 1 1446 16953 25774 XOR";
"2 1 26026 25899 12891 XOR";
"2 1 16952 25899 12890 XOR";
"2 1 12891 12890 12889 AND";
"2 1 12889 25899 25900 XOR";
"2 1 25963 25900 1445 XOR";
"2 1 1445 16954 25775 XOR";
"2 1 26027 25900 12888 XOR";
"2 1 16953 25900 12887 XOR";
"2 1 12888 12887 12886 AND";
"2 1 12886 25900 25901 XOR";
"2 1 25964 25901 1444 XOR";
"2 1 1444 16955 25776 XOR";
"2 1 26028 25901 12885 XOR";
"2 1 16954 25901 12884 XOR";
"2 1 12885 12884 12883 AND";
"2 1 12883 25901 25902 XOR";
"2 1 25965 25902 1443 XOR";
"2 1 1443 16956 25777 XOR";
"2 1 26029 25902 12882 XOR";
"2 1 16955 25902 12881 XOR";
"2 1 12882 12881 12880 AND";
"2 1 12880 25902 25903 XOR";
"2 1 25966 25903 1442 XOR";
"2 1 1442 16957 25778 XOR";
"2 1 26030 25903 12879 XOR";
"2 1 16956 25903 12878 XOR";
"2 1 12879 12878 12877 AND";
"2 1 12877 25903 25904 XOR";
"2 1 25967 25904 1441 XOR";
"2 1 1441 16958 25779 XOR";
"2 1 26031 25904 12876 XOR";
"2 1 16957 25904 12875 XOR";
"2 1 12876 12875 12874 AND";
"2 1 12874 25904 25905 XOR";
"2 1 25968 25905 1440 XOR";
"2 1 1440 16959 25780 XOR";
"2 1 26032 25905 12873 XOR";
"2 1 16958 25905 12872 XOR";
"2 1 12873 12872 12871 AND";
"2 1 12871 25905 25906 XOR";
"2 1 25969 25906 1439 XOR";
"2 1 1439 16960 25781 XOR";
"2 1 26033 25906 12870 XOR";
"2 1 16959 25906 12869 XOR";
"2 1 12870 12869 12868 AND";
"2 1 12868 25906 25907 XOR";
"2 1 25970 25907 1438 XOR";
"2 1 1438 16961 25782 XOR";
"2 1 26034 25907 12867 XOR";
"2 1 16960 25907 12866 XOR";
"2 1 12867 12866 12865 AND";
"2 1 12865 25907 25908 XOR";
"2 1 25971 25908 1437 XOR";
"2 1 1437 16962 25783 XOR";
"2 1 26035 25908 12864 XOR";
"2 1 16961 25908 12863 XOR";
"2 1 12864 12863 12862 AND";
"2 1 12862 25908 25909 XOR";
"2 1 25972 25909 1436 XOR";
"2 1 1436 16963 25784 XOR";
"2 1 26036 25909 12861 XOR";
"2 1 16962 25909 12860 XOR";
"2 1 12861 12860 12859 AND";
"2 1 12859 25909 25910 XOR";
"2 1 25973 25910 1435 XOR";
"2 1 1435 16964 25785 XOR";
"2 1 26037 25910 12858 XOR";
"2 1 16963 25910 12857 XOR";
"2 1 12858 12857 12856 AND";
"2 1 12856 25910 25911 XOR";
"2 1 25974 25911 1434 XOR";
"2 1 1434 16965 25786 XOR";
"2 1 26038 25911 12855 XOR";
"2 1 16964 25911 12854 XOR";
"2 1 12855 12854 12853 AND";
"2 1 12853 25911 25912 XOR";
"2 1 25975 25912 1433 XOR";
"2 1 1433 16966 25787 XOR";
"2 1 26039 25912 12852 XOR";
"2 1 16965 25912 12851 XOR";
"2 1 12852 12851 12850 AND";
"2 1 12850 25912 25913 XOR";
"2 1 25976 25913 1432 XOR";
"2 1 1432 16967 25788 XOR";
"2 1 26040 25913 12849 XOR";
"2 1 16966 25913 12848 XOR";
"2 1 12849 12848 12847 AND";
"2 1 12847 25913 25914 XOR";
"2 1 25977 25914 1431 XOR";
"2 1 1431 16968 25789 XOR";
"2 1 26041 25914 12846 XOR";
"2 1 16967 25914 12845 XOR";
"2 1 12846 12845 12844 AND";
"2 1 12844 25914 25915 XOR";
"2 1 25978 25915 1430 XOR";
"2 1 1430 16969 25790 XOR";
"2 1 26042 25915 12843 XOR";
"2 1 16968 25915 12842 XOR";
"2 1 12843 12842 12841 AND";
"2 1 12841 25915 25916 XOR";
"2 1 25979 25916 1429 XOR";
"2 1 1429 16970 25791 XOR";
"2 1 26043 25916 12840 XOR";
"2 1 16969 25916 12839 XOR";
"2 1 12840 12839 12838 AND";
"2 1 12838 25916 25917 XOR";
"2 1 25980 25917 1428 XOR";
"2 1 1428 16971 25792 XOR";
"2 1 26044 25917 12837 XOR";
"2 1 16970 25917 12836 XOR";
"2 1 12837 12836 12835 AND";
"2 1 12835 25917 25918 XOR";
"2 1 25981 25918 1427 XOR";
"2 1 1427 16972 25793 XOR";
"2 1 26045 25918 12834 XOR";
"2 1 16971 25918 12833 XOR";
"2 1 12834 12833 12832 AND";
"2 1 12832 25918 25919 XOR";
"2 1 25982 25919 1426 XOR";
"2 1 1426 16973 25794 XOR";
"2 1 26046 25919 12831 XOR";
"2 1 16972 25919 12830 XOR";
"2 1 12831 12830 12829 AND";
"2 1 12829 25919 25920 XOR";
"2 1 25983 25920 1425 XOR";
"2 1 1425 16974 25795 XOR";
"2 1 26047 25920 12828 XOR";
"2 1 16973 25920 12827 XOR";
"2 1 12828 12827 12826 AND";
"2 1 12826 25920 25921 XOR";
"2 1 25984 25921 1424 XOR";
"2 1 1424 16975 25796 XOR";
"2 1 26048 25921 12825 XOR";
"2 1 16974 25921 12824 XOR";
"2 1 12825 12824 12823 AND";
"2 1 12823 25921 25922 XOR";
"2 1 25985 25922 1423 XOR";
"2 1 1423 16976 25797 XOR";
"2 1 26049 25922 12822 XOR";
"2 1 16975 25922 12821 XOR";
"2 1 12822 12821 12820 AND";
"2 1 12820 25922 25923 XOR";
"2 1 25986 25923 1422 XOR";
"2 1 1422 16977 25798 XOR";
"2 1 26050 25923 12819 XOR";
"2 1 16976 25923 12818 XOR";
"2 1 12819 12818 12817 AND";
"2 1 12817 25923 25924 XOR";
"2 1 25987 25924 1421 XOR";
"2 1 1421 16978 25799 XOR";
"2 1 26051 25924 12816 XOR";
"2 1 16977 25924 12815 XOR";
"2 1 12816 12815 12814 AND";
"2 1 12814 25924 25925 XOR";
"2 1 25988 25925 1420 XOR";
"2 1 1420 16979 25800 XOR";
"2 1 26052 25925 12813 XOR";
"2 1 16978 25925 12812 XOR";
"2 1 12813 12812 12811 AND";
"2 1 12811 25925 25926 XOR";
"2 1 25989 25926 1419 XOR";
"2 1 1419 16980 25801 XOR";
"2 1 26053 25926 12810 XOR";
"2 1 16979 25926 12809 XOR";
"2 1 12810 12809 12808 AND";
"2 1 12808 25926 25927 XOR";
"2 1 25990 25927 1418 XOR";
"2 1 1418 16981 25802 XOR";
"2 1 26054 25927 12807 XOR";
"2 1 16980 25927 12806 XOR";
"2 1 12807 12806 12805 AND";
"2 1 12805 25927 25928 XOR";
"2 1 25991 25928 1417 XOR";
"2 1 1417 16982 25803 XOR";
"2 1 26055 25928 12804 XOR";
"2 1 16981 25928 12803 XOR";
"2 1 12804 12803 12802 AND";
"2 1 12802 25928 25929 XOR";
"2 1 25992 25929 1416 XOR";
"2 1 1416 16983 25804 XOR";
"2 1 26056 25929 12801 XOR";
"2 1 16982 25929 12800 XOR";
"2 1 12801 12800 12799 AND";
"2 1 12799 25929 25930 XOR";
"2 1 25993 25930 1415 XOR";
"2 1 1415 16984 25805 XOR";
"2 1 26057 25930 12798 XOR";
"2 1 16983 25930 12797 XOR";
"2 1 12798 12797 12796 AND";
"2 1 12796 25930 25931 XOR";
"2 1 25994 25931 1414 XOR";
"2 1 1414 16985 25806 XOR";
"2 1 26058 25931 12795 XOR";
"2 1 16984 25931 12794 XOR";
"2 1 12795 12794 12793 AND";
"2 1 12793 25931 25932 XOR";
"2 1 25995 25932 1413 XOR";
"2 1 1413 16986 25807 XOR";
"2 1 26059 25932 12792 XOR";
"2 1 16985 25932 12791 XOR";
"2 1 12792 12791 12790 AND";
"2 1 12790 25932 25933 XOR";
"2 1 25996 25933 1412 XOR";
"2 1 1412 16987 25808 XOR";
"2 1 26060 25933 12789 XOR";
"2 1 16986 25933 12788 XOR";
"2 1 12789 12788 12787 AND";
"2 1 12787 25933 25934 XOR";
"2 1 25997 25934 1411 XOR";
"2 1 1411 16988 25809 XOR";
"2 1 26061 25934 12786 XOR";
"2 1 16987 25934 12785 XOR";
"2 1 12786 12785 12784 AND";
"2 1 12784 25934 25935 XOR";
"2 1 25998 25935 1410 XOR";
"2 1 1410 16989 25810 XOR";
"2 1 26062 25935 12783 XOR";
"2 1 16988 25935 12782 XOR";
"2 1 12783 12782 12781 AND";
"2 1 12781 25935 25936 XOR";
"2 1 25999 25936 1409 XOR";
"2 1 1409 16990 25811 XOR";
"2 1 26063 25936 12780 XOR";
"2 1 16989 25936 12779 XOR";
"2 1 12780 12779 12778 AND";
"2 1 12778 25936 25937 XOR";
"2 1 26000 25937 1408 XOR";
"2 1 1408 16991 25812 XOR";
"2 1 26064 25937 12777 XOR";
"2 1 16990 25937 12776 XOR";
"2 1 12777 12776 12775 AND";
"2 1 12775 25937 25938 XOR";
"2 1 26001 25938 1407 XOR";
"2 1 1407 16992 25813 XOR";
"2 1 26065 25938 12774 XOR";
"2 1 16991 25938 12773 XOR";
"2 1 12774 12773 12772 AND";
"2 1 12772 25938 25939 XOR";
"2 1 26002 25939 1406 XOR";
"2 1 1406 16993 25814 XOR";
"2 1 26066 25939 12771 XOR";
"2 1 16992 25939 12770 XOR";
"2 1 12771 12770 12769 AND";
"2 1 12769 25939 25940 XOR";
"2 1 26003 25940 1405 XOR";
"2 1 1405 16994 25815 XOR";
"2 1 26067 25940 12768 XOR";
"2 1 16993 25940 12767 XOR";
"2 1 12768 12767 12766 AND";
"2 1 12766 25940 25941 XOR";
"2 1 26004 25941 1404 XOR";
"2 1 1404 16995 25816 XOR";
"2 1 26068 25941 12765 XOR";
"2 1 16994 25941 12764 XOR";
"2 1 12765 12764 12763 AND";
"2 1 12763 25941 25942 XOR";
"2 1 26005 25942 1403 XOR";
"2 1 1403 16996 25817 XOR";
"2 1 26069 25942 12762 XOR";
"2 1 16995 25942 12761 XOR";
"2 1 12762 12761 12760 AND";
"2 1 12760 25942 25943 XOR";
"2 1 26006 25943 1402 XOR";
"2 1 1402 16997 25818 XOR";
"2 1 26070 25943 12759 XOR";
"2 1 16996 25943 12758 XOR";
"2 1 12759 12758 12757 AND";
"2 1 12757 25943 25944 XOR";
"2 1 26007 25944 1401 XOR";
"2 1 1401 16998 25819 XOR";
"2 1 26071 25944 12756 XOR";
"2 1 16997 25944 12755 XOR";
"2 1 12756 12755 12754 AND";
"2 1 12754 25944 25945 XOR";
"2 1 26008 25945 1400 XOR";
"2 1 1400 16999 25820 XOR";
"2 1 26072 25945 12753 XOR";
"2 1 16998 25945 12752 XOR";
"2 1 12753 12752 12751 AND";
"2 1 12751 25945 25946 XOR";
"2 1 26009 25946 1399 XOR";
"2 1 1399 17000 25821 XOR";
"2 1 26073 25946 12750 XOR";
"2 1 16999 25946 12749 XOR";
"2 1 12750 12749 12748 AND";
"2 1 12748 25946 25947 XOR";
"2 1 26010 25947 1398 XOR";
"2 1 1398 17001 25822 XOR";
"2 1 26074 25947 12747 XOR";
"2 1 17000 25947 12746 XOR";
"2 1 12747 12746 12745 AND";
"2 1 12745 25947 25948 XOR";
"2 1 26011 25948 1397 XOR";
"2 1 1397 17002 25823 XOR";
"2 1 26075 25948 12744 XOR";
"2 1 17001 25948 12743 XOR";
"2 1 12744 12743 12742 AND";
"2 1 12742 25948 25949 XOR";
"2 1 26012 25949 1396 XOR";
"2 1 1396 17003 25824 XOR";
"2 1 26076 25949 12741 XOR";
"2 1 17002 25949 12740 XOR";
"2 1 12741 12740 12739 AND";
"2 1 12739 25949 25950 XOR";
"2 1 26013 25950 1395 XOR";
"2 1 1395 17004 25825 XOR";
"2 1 26077 25950 12738 XOR";
"2 1 17003 25950 12737 XOR";
"2 1 12738 12737 12736 AND";
"2 1 12736 25950 25951 XOR";
"2 1 26014 25951 1394 XOR";
"2 1 1394 17005 25826 XOR";
"2 1 26078 25951 12735 XOR";
"2 1 17004 25951 12734 XOR";
"2 1 12735 12734 12733 AND";
"2 1 12733 25951 25952 XOR";
"2 1 26015 25952 1393 XOR";
"2 1 1393 17006 25827 XOR";
"2 1 26079 25952 12732 XOR";
"2 1 17005 25952 12731 XOR";
"2 1 12732 12731 12730 AND";
"2 1 12730 25952 25953 XOR";
"2 1 26016 25953 1392 XOR";
"2 1 1392 17007 25828 XOR";
"2 1 26080 25953 12729 XOR";
"2 1 17006 25953 12728 XOR";
"2 1 12729 12728 12727 AND";
"2 1 12727 25953 25954 XOR";
"2 1 26017 25954 1391 XOR";
"2 1 1391 17008 25829 XOR";
"2 1 26081 25954 12726 XOR";
"2 1 17007 25954 12725 XOR";
"2 1 12726 12725 12724 AND";
"2 1 12724 25954 25955 XOR";
"2 1 26018 25955 1390 XOR";
"2 1 1390 17009 25830 XOR";
"2 1 26082 25955 12723 XOR";
"2 1 17008 25955 12722 XOR";
"2 1 12723 12722 12721 AND";
"2 1 12721 25955 25956 XOR";
"2 1 26019 25956 149 XOR";
"2 1 16674 4535 17558 AND";
"1 1 149 16673 INV";
"2 1 16862 16673 25831 XOR";
"2 1 1452 16673 25832 XOR";
"2 1 1451 16673 25833 XOR";
"2 1 1450 16673 25834 XOR";
"2 1 1449 16673 25835 XOR";
"2 1 1448 16673 25836 XOR";
"2 1 1447 16673 25837 XOR";
"2 1 1446 16673 25838 XOR";
"2 1 1445 16673 25839 XOR";
"2 1 1444 16673 25840 XOR";
"2 1 1443 16673 25841 XOR";
"2 1 1442 16673 25842 XOR";
"2 1 1441 16673 25843 XOR";
"2 1 1440 16673 25844 XOR";
"2 1 1439 16673 25845 XOR";
"2 1 1438 16673 25846 XOR";
"2 1 1437 16673 25847 XOR";
"2 1 1436 16673 25848 XOR";
"2 1 1435 16673 25849 XOR";
"2 1 1434 16673 25850 XOR";
"2 1 1433 16673 25851 XOR";
"2 1 1432 16673 25852 XOR";
"2 1 1431 16673 25853 XOR";
"2 1 1430 16673 25854 XOR";
"2 1 1429 16673 25855 XOR";
"2 1 1428 16673 25856 XOR";
"2 1 1427 16673 25857 XOR";
"2 1 1426 16673 25858 XOR";
"2 1 1425 16673 25859 XOR";
"2 1 1424 16673 25860 XOR";
"2 1 1423 16673 25861 XOR";
"2 1 1422 16673 25862 XOR";
"2 1 1421 16673 25863 XOR";
"2 1 1420 16673 25864 XOR";
"2 1 1419 16673 25865 XOR";
"2 1 1418 16673 25866 XOR";
"2 1 1417 16673 25867 XOR";
"2 1 1416 16673 25868 XOR";
"2 1 1415 16673 25869 XOR";
"2 1 1414 16673 25870 XOR";
"2 1 1413 16673 25871 XOR";
"2 1 1412 16673 25872 XOR";
"2 1 1411 16673 25873 XOR";
"2 1 1410 16673 25874 XOR";
"2 1 1409 16673 25875 XOR";
"2 1 1408 16673 25876 XOR";
"2 1 1407 16673 25877 XOR";
"2 1 1406 16673 25878 XOR";
"2 1 1405 16673 25879 XOR";
"2 1 1404 16673 25880 XOR";
"2 1 1403 16673 25881 XOR";
"2 1 1402 16673 25882 XOR";
"2 1 1401 16673 25883 XOR";
"2 1 1400 16673 25884 XOR";
"2 1 1399 16673 25885 XOR";
"2 1 1398 16673 25886 XOR";
"2 1 1397 16673 25887 XOR";
"2 1 1396 16673 25888 XOR";
"2 1 1395 16673 25889 XOR";
"2 1 1394 16673 25890 XOR";
"2 1 1393 16673 25891 XOR";
"2 1 1392 16673 25892 XOR";
"2 1 1391 16673 25893 XOR";
"2 1 25831 16946 25705 AND";
"2 1 25768 25705 1514 XOR";
"2 1 1514 16948 25580 XOR";
"2 1 25832 25705 12720 XOR";
"2 1 16947 25705 12719 XOR";
"2 1 12720 12719 12718 AND";
"2 1 12718 25705 25706 XOR";
"2 1 25769 25706 1513 XOR";
"2 1 1513 16949 25581 XOR";
"2 1 25833 25706 12717 XOR";
"2 1 16948 25706 12716 XOR";
"2 1 12717 12716 12715 AND";
"2 1 12715 25706 25707 XOR";
"2 1 25770 25707 1512 XOR";
"2 1 1512 16950 25582 XOR";
"2 1 25834 25707 12714 XOR";
"2 1 16949 25707 12713 XOR";
"2 1 12714 12713 12712 AND";
"2 1 12712 25707 25708 XOR";
"2 1 25771 25708 1511 XOR";
"2 1 1511 16951 25583 XOR";
"2 1 25835 25708 12711 XOR";
"2 1 16950 25708 12710 XOR";
"2 1 12711 12710 12709 AND";
"2 1 12709 25708 25709 XOR";
"2 1 25772 25709 1510 XOR";
"2 1 1510 16952 25584 XOR";
"2 1 25836 25709 12708 XOR";
"2 1 16951 25709 12707 XOR";
"2 1 12708 12707 12706 AND";
"2 1 12706 25709 25710 XOR";
"2 1 25773 25710 1509 XOR";
"2 1 1509 16953 25585 XOR";
"2 1 25837 25710 12705 XOR";
"2 1 16952 25710 12704 XOR";
"2 1 12705 12704 12703 AND";
"2 1 12703 25710 25711 XOR";
"2 1 25774 25711 1508 XOR";
"2 1 1508 16954 25586 XOR";
"2 1 25838 25711 12702 XOR";
"2 1 16953 25711 12701 XOR";
"2 1 12702 12701 12700 AND";
"2 1 12700 25711 25712 XOR";
"2 1 25775 25712 1507 XOR";
"2 1 1507 16955 25587 XOR";
"2 1 25839 25712 12699 XOR";
"2 1 16954 25712 12698 XOR";
"2 1 12699 12698 12697 AND";
"2 1 12697 25712 25713 XOR";
"2 1 25776 25713 1506 XOR";
"2 1 1506 16956 25588 XOR";
"2 1 25840 25713 12696 XOR";
"2 1 16955 25713 12695 XOR";
"2 1 12696 12695 12694 AND";
"2 1 12694 25713 25714 XOR";
"2 1 25777 25714 1505 XOR";
"2 1 1505 16957 25589 XOR";
"2 1 25841 25714 12693 XOR";
"2 1 16956 25714 12692 XOR";
"2 1 12693 12692 12691 AND";
"2 1 12691 25714 25715 XOR";
"2 1 25778 25715 1504 XOR";
"2 1 1504 16958 25590 XOR";
"2 1 25842 25715 12690 XOR";
"2 1 16957 25715 12689 XOR";
"2 1 12690 12689 12688 AND";
"2 1 12688 25715 25716 XOR";
"2 1 25779 25716 1503 XOR";
"2 1 1503 16959 25591 XOR";
"2 1 25843 25716 12687 XOR";
"2 1 16958 25716 12686 XOR";
"2 1 12687 12686 12685 AND";
"2 1 12685 25716 25717 XOR";
"2 1 25780 25717 1502 XOR";
"2 1 1502 16960 25592 XOR";
"2 1 25844 25717 12684 XOR";
"2 1 16959 25717 12683 XOR";
"2 1 12684 12683 12682 AND";
"2 1 12682 25717 25718 XOR";
"2 1 25781 25718 1501 XOR";
"2 1 1501 16961 25593 XOR";
"2 1 25845 25718 12681 XOR";
"2 1 16960 25718 12680 XOR";
"2 1 12681 12680 12679 AND";
"2 1 12679 25718 25719 XOR";
"2 1 25782 25719 1500 XOR";
"2 1 1500 16962 25594 XOR";
"2 1 25846 25719 12678 XOR";
"2 1 16961 25719 12677 XOR";
"2 1 12678 12677 12676 AND";
"2 1 12676 25719 25720 XOR";
"2 1 25783 25720 1499 XOR";
"2 1 1499 16963 25595 XOR";
"2 1 25847 25720 12675 XOR";
"2 1 16962 25720 12674 XOR";
"2 1 12675 12674 12673 AND";
"2 1 12673 25720 25721 XOR";
"2 1 25784 25721 1498 XOR";
"2 1 1498 16964 25596 XOR";
"2 1 25848 25721 12672 XOR";
"2 1 16963 25721 12671 XOR";
"2 1 12672 12671 12670 AND";
"2 1 12670 25721 25722 XOR";
"2 1 25785 25722 1497 XOR";
"2 1 1497 16965 25597 XOR";
"2 1 25849 25722 12669 XOR";
"2 1 16964 25722 12668 XOR";
"2 1 12669 12668 12667 AND";
"2 1 12667 25722 25723 XOR";
"2 1 25786 25723 1496 XOR";
"2 1 1496 16966 25598 XOR";
"2 1 25850 25723 12666 XOR";
"2 1 16965 25723 12665 XOR";
"2 1 12666 12665 12664 AND";
"2 1 12664 25723 25724 XOR";
"2 1 25787 25724 1495 XOR";
"2 1 1495 16967 25599 XOR";
"2 1 25851 25724 12663 XOR";
"2 1 16966 25724 12662 XOR";
"2 1 12663 12662 12661 AND";
"2 1 12661 25724 25725 XOR";
"2 1 25788 25725 1494 XOR";
"2 1 1494 16968 25600 XOR";
"2 1 25852 25725 12660 XOR";
"2 1 16967 25725 12659 XOR";
"2 1 12660 12659 12658 AND";
"2 1 12658 25725 25726 XOR";
"2 1 25789 25726 1493 XOR";
"2 1 1493 16969 25601 XOR";
"2 1 25853 25726 12657 XOR";
"2 1 16968 25726 12656 XOR";
"2 1 12657 12656 12655 AND";
"2 1 12655 25726 25727 XOR";
"2 1 25790 25727 1492 XOR";
"2 1 1492 16970 25602 XOR";
"2 1 25854 25727 12654 XOR";
"2 1 16969 25727 12653 XOR";
"2 1 12654 12653 12652 AND";
"2 1 12652 25727 25728 XOR";
"2 1 25791 25728 1491 XOR";
"2 1 1491 16971 25603 XOR";
"2 1 25855 25728 12651 XOR";
"2 1 16970 25728 12650 XOR";
"2 1 12651 12650 12649 AND";
"2 1 12649 25728 25729 XOR";
"2 1 25792 25729 1490 XOR";
"2 1 1490 16972 25604 XOR";
"2 1 25856 25729 12648 XOR";
"2 1 16971 25729 12647 XOR";
"2 1 12648 12647 12646 AND";
"2 1 12646 25729 25730 XOR";
"2 1 25793 25730 1489 XOR";
"2 1 1489 16973 25605 XOR";
"2 1 25857 25730 12645 XOR";
"2 1 16972 25730 12644 XOR";
"2 1 12645 12644 12643 AND";
"2 1 12643 25730 25731 XOR";
"2 1 25794 25731 1488 XOR";
"2 1 1488 16974 25606 XOR";
"2 1 25858 25731 12642 XOR";
"2 1 16973 25731 12641 XOR";
"2 1 12642 12641 12640 AND";
"2 1 12640 25731 25732 XOR";
"2 1 25795 25732 1487 XOR";
"2 1 1487 16975 25607 XOR";
"2 1 25859 25732 12639 XOR";
"2 1 16974 25732 12638 XOR";
"2 1 12639 12638 12637 AND";
"2 1 12637 25732 25733 XOR";
"2 1 25796 25733 1486 XOR";
"2 1 1486 16976 25608 XOR";
"2 1 25860 25733 12636 XOR";
"2 1 16975 25733 12635 XOR";
"2 1 12636 12635 12634 AND";
"2 1 12634 25733 25734 XOR";
"2 1 25797 25734 1485 XOR";
"2 1 1485 16977 25609 XOR";
"2 1 25861 25734 12633 XOR";
"2 1 16976 25734 12632 XOR";
"2 1 12633 12632 12631 AND";
"2 1 12631 25734 25735 XOR";
"2 1 25798 25735 1484 XOR";
"2 1 1484 16978 25610 XOR";
"2 1 25862 25735 12630 XOR";
"2 1 16977 25735 12629 XOR";
"2 1 12630 12629 12628 AND";
"2 1 12628 25735 25736 XOR";
"2 1 25799 25736 1483 XOR";
"2 1 1483 16979 25611 XOR";
"2 1 25863 25736 12627 XOR";
"2 1 16978 25736 12626 XOR";
"2 1 12627 12626 12625 AND";
"2 1 12625 25736 25737 XOR";
"2 1 25800 25737 1482 XOR";
"2 1 1482 16980 25612 XOR";
"2 1 25864 25737 12624 XOR";
"2 1 16979 25737 12623 XOR";
"2 1 12624 12623 12622 AND";
"2 1 12622 25737 25738 XOR";
"2 1 25801 25738 1481 XOR";
"2 1 1481 16981 25613 XOR";
"2 1 25865 25738 12621 XOR";
"2 1 16980 25738 12620 XOR";
"2 1 12621 12620 12619 AND";
"2 1 12619 25738 25739 XOR";
"2 1 25802 25739 1480 XOR";
"2 1 1480 16982 25614 XOR";
"2 1 25866 25739 12618 XOR";
"2 1 16981 25739 12617 XOR";
"2 1 12618 12617 12616 AND";
"2 1 12616 25739 25740 XOR";
"2 1 25803 25740 1479 XOR";
"2 1 1479 16983 25615 XOR";
"2 1 25867 25740 12615 XOR";
"2 1 16982 25740 12614 XOR";
"2 1 12615 12614 12613 AND";
"2 1 12613 25740 25741 XOR";
"2 1 25804 25741 1478 XOR";
"2 1 1478 16984 25616 XOR";
"2 1 25868 25741 12612 XOR";
"2 1 16983 25741 12611 XOR";
"2 1 12612 12611 12610 AND";
"2 1 12610 25741 25742 XOR";
"2 1 25805 25742 1477 XOR";
"2 1 1477 16985 25617 XOR";
"2 1 25869 25742 12609 XOR";
"2 1 16984 25742 12608 XOR";
"2 1 12609 12608 12607 AND";
"2 1 12607 25742 25743 XOR";
"2 1 25806 25743 1476 XOR";
"2 1 1476 16986 25618 XOR";
"2 1 25870 25743 12606 XOR";
"2 1 16985 25743 12605 XOR";
"2 1 12606 12605 12604 AND";
"2 1 12604 25743 25744 XOR";
"2 1 25807 25744 1475 XOR";
"2 1 1475 16987 25619 XOR";
"2 1 25871 25744 12603 XOR";
"2 1 16986 25744 12602 XOR";
"2 1 12603 12602 12601 AND";
"2 1 12601 25744 25745 XOR";
"2 1 25808 25745 1474 XOR";
"2 1 1474 16988 25620 XOR";
"2 1 25872 25745 12600 XOR";
"2 1 16987 25745 12599 XOR";
"2 1 12600 12599 12598 AND";
"2 1 12598 25745 25746 XOR";
"2 1 25809 25746 1473 XOR";
"2 1 1473 16989 25621 XOR";
"2 1 25873 25746 12597 XOR";
"2 1 16988 25746 12596 XOR";
"2 1 12597 12596 12595 AND";
"2 1 12595 25746 25747 XOR";
"2 1 25810 25747 1472 XOR";
"2 1 1472 16990 25622 XOR";
"2 1 25874 25747 12594 XOR";
"2 1 16989 25747 12593 XOR";
"2 1 12594 12593 12592 AND";
"2 1 12592 25747 25748 XOR";
"2 1 25811 25748 1471 XOR";
"2 1 1471 16991 25623 XOR";
"2 1 25875 25748 12591 XOR";
"2 1 16990 25748 12590 XOR";
"2 1 12591 12590 12589 AND";
"2 1 12589 25748 25749 XOR";
"2 1 25812 25749 1470 XOR";
"2 1 1470 16992 25624 XOR";
"2 1 25876 25749 12588 XOR";
"2 1 16991 25749 12587 XOR";
"2 1 12588 12587 12586 AND";
"2 1 12586 25749 25750 XOR";
"2 1 25813 25750 1469 XOR";
"2 1 1469 16993 25625 XOR";
"2 1 25877 25750 12585 XOR";
"2 1 16992 25750 12584 XOR";
"2 1 12585 12584 12583 AND";
"2 1 12583 25750 25751 XOR";
"2 1 25814 25751 1468 XOR";
"2 1 1468 16994 25626 XOR";
"2 1 25878 25751 12582 XOR";
"2 1 16993 25751 12581 XOR";
"2 1 12582 12581 12580 AND";
"2 1 12580 25751 25752 XOR";
"2 1 25815 25752 1467 XOR";
"2 1 1467 16995 25627 XOR";
"2 1 25879 25752 12579 XOR";
"2 1 16994 25752 12578 XOR";
"2 1 12579 12578 12577 AND";
"2 1 12577 25752 25753 XOR";
"2 1 25816 25753 1466 XOR";
"2 1 1466 16996 25628 XOR";
"2 1 25880 25753 12576 XOR";
"2 1 16995 25753 12575 XOR";
"2 1 12576 12575 12574 AND";
"2 1 12574 25753 25754 XOR";
"2 1 25817 25754 1465 XOR";
"2 1 1465 16997 25629 XOR";
"2 1 25881 25754 12573 XOR";
"2 1 16996 25754 12572 XOR";
"2 1 12573 12572 12571 AND";
"2 1 12571 25754 25755 XOR";
"2 1 25818 25755 1464 XOR";
"2 1 1464 16998 25630 XOR";
"2 1 25882 25755 12570 XOR";
"2 1 16997 25755 12569 XOR";
"2 1 12570 12569 12568 AND";
"2 1 12568 25755 25756 XOR";
"2 1 25819 25756 1463 XOR";
"2 1 1463 16999 25631 XOR";
"2 1 25883 25756 12567 XOR";
"2 1 16998 25756 12566 XOR";
"2 1 12567 12566 12565 AND";
"2 1 12565 25756 25757 XOR";
"2 1 25820 25757 1462 XOR";
"2 1 1462 17000 25632 XOR";
"2 1 25884 25757 12564 XOR";
"2 1 16999 25757 12563 XOR";
"2 1 12564 12563 12562 AND";
"2 1 12562 25757 25758 XOR";
"2 1 25821 25758 1461 XOR";
"2 1 1461 17001 25633 XOR";
"2 1 25885 25758 12561 XOR";
"2 1 17000 25758 12560 XOR";
"2 1 12561 12560 12559 AND";
"2 1 12559 25758 25759 XOR";
"2 1 25822 25759 1460 XOR";
"2 1 1460 17002 25634 XOR";
"2 1 25886 25759 12558 XOR";
"2 1 17001 25759 12557 XOR";
"2 1 12558 12557 12556 AND";
"2 1 12556 25759 25760 XOR";
"2 1 25823 25760 1459 XOR";
"2 1 1459 17003 25635 XOR";
"2 1 25887 25760 12555 XOR";
"2 1 17002 25760 12554 XOR";
"2 1 12555 12554 12553 AND";
"2 1 12553 25760 25761 XOR";
"2 1 25824 25761 1458 XOR";
"2 1 1458 17004 25636 XOR";
"2 1 25888 25761 12552 XOR";
"2 1 17003 25761 12551 XOR";
"2 1 12552 12551 12550 AND";
"2 1 12550 25761 25762 XOR";
"2 1 25825 25762 1457 XOR";
"2 1 1457 17005 25637 XOR";
"2 1 25889 25762 12549 XOR";
"2 1 17004 25762 12548 XOR";
"2 1 12549 12548 12547 AND";
"2 1 12547 25762 25763 XOR";
"2 1 25826 25763 1456 XOR";
"2 1 1456 17006 25638 XOR";
"2 1 25890 25763 12546 XOR";
"2 1 17005 25763 12545 XOR";
"2 1 12546 12545 12544 AND";
"2 1 12544 25763 25764 XOR";
"2 1 25827 25764 1455 XOR";
"2 1 1455 17007 25639 XOR";
"2 1 25891 25764 12543 XOR";
"2 1 17006 25764 12542 XOR";
"2 1 12543 12542 12541 AND";
"2 1 12541 25764 25765 XOR";
"2 1 25828 25765 1454 XOR";
"2 1 1454 17008 25640 XOR";
"2 1 25892 25765 12540 XOR";
"2 1 17007 25765 12539 XOR";
"2 1 12540 12539 12538 AND";
"2 1 12538 25765 25766 XOR";
"2 1 25829 25766 1453 XOR";
"2 1 1453 17009 25641 XOR";
"2 1 25893 25766 12537 XOR";
"2 1 17008 25766 12536 XOR";
"2 1 12537 12536 12535 AND";
"2 1 12535 25766 25767 XOR";
"2 1 25830 25767 150 XOR";
"1 1 150 16672 INV";
"2 1 16861 16672 25642 XOR";
"2 1 1515 16672 25643 XOR";
"2 1 1514 16672 25644 XOR";
"2 1 1513 16672 25645 XOR";
"2 1 1512 16672 25646 XOR";
"2 1 1511 16672 25647 XOR";
"2 1 1510 16672 25648 XOR";
"2 1 1509 16672 25649 XOR";
"2 1 1508 16672 25650 XOR";
"2 1 1507 16672 25651 XOR";
"2 1 1506 16672 25652 XOR";
"2 1 1505 16672 25653 XOR";
"2 1 1504 16672 25654 XOR";
"2 1 1503 16672 25655 XOR";
"2 1 1502 16672 25656 XOR";
"2 1 1501 16672 25657 XOR";
"2 1 1500 16672 25658 XOR";
"2 1 1499 16672 25659 XOR";
"2 1 1498 16672 25660 XOR";
"2 1 1497 16672 25661 XOR";
"2 1 1496 16672 25662 XOR";
"2 1 1495 16672 25663 XOR";
"2 1 1494 16672 25664 XOR";
"2 1 1493 16672 25665 XOR";
"2 1 1492 16672 25666 XOR";
"2 1 1491 16672 25667 XOR";
"2 1 1490 16672 25668 XOR";
"2 1 1489 16672 25669 XOR";
"2 1 1488 16672 25670 XOR";
"2 1 1487 16672 25671 XOR";
"2 1 1486 16672 25672 XOR";
"2 1 1485 16672 25673 XOR";
"2 1 1484 16672 25674 XOR";
"2 1 1483 16672 25675 XOR";
"2 1 1482 16672 25676 XOR";
"2 1 1481 16672 25677 XOR";
"2 1 1480 16672 25678 XOR";
"2 1 1479 16672 25679 XOR";
"2 1 1478 16672 25680 XOR";
"2 1 1477 16672 25681 XOR";
"2 1 1476 16672 25682 XOR";
"2 1 1475 16672 25683 XOR";
"2 1 1474 16672 25684 XOR";
"2 1 1473 16672 25685 XOR";
"2 1 1472 16672 25686 XOR";
"2 1 1471 16672 25687 XOR";
"2 1 1470 16672 25688 XOR";
"2 1 1469 16672 25689 XOR";
"2 1 1468 16672 25690 XOR";
"2 1 1467 16672 25691 XOR";
"2 1 1466 16672 25692 XOR";
"2 1 1465 16672 25693 XOR";
"2 1 1464 16672 25694 XOR";
"2 1 1463 16672 25695 XOR";
"2 1 1462 16672 25696 XOR";
"2 1 1461 16672 25697 XOR";
"2 1 1460 16672 25698 XOR";
"2 1 1459 16672 25699 XOR";
"2 1 1458 16672 25700 XOR";
"2 1 1457 16672 25701 XOR";
"2 1 1456 16672 25702 XOR";
"2 1 1455 16672 25703 XOR";
"2 1 1454 16672 25704 XOR";
"2 1 25642 16946 25516 AND";
"2 1 25579 25516 1577 XOR";
"2 1 1577 16948 25391 XOR";
"2 1 25643 25516 12534 XOR";
"2 1 16947 25516 12533 XOR";
"2 1 12534 12533 12532 AND";
"2 1 12532 25516 25517 XOR";
"2 1 25580 25517 1576 XOR";
"2 1 1576 16949 25392 XOR";
"2 1 25644 25517 12531 XOR";
"2 1 16948 25517 12530 XOR";
"2 1 12531 12530 12529 AND";
"2 1 12529 25517 25518 XOR";
"2 1 25581 25518 1575 XOR";
"2 1 1575 16950 25393 XOR";
"2 1 25645 25518 12528 XOR";
"2 1 16949 25518 12527 XOR";
"2 1 12528 12527 12526 AND";
"2 1 12526 25518 25519 XOR";
"2 1 25582 25519 1574 XOR";
"2 1 1574 16951 25394 XOR";
"2 1 25646 25519 12525 XOR";
"2 1 16950 25519 12524 XOR";
"2 1 12525 12524 12523 AND";
"2 1 12523 25519 25520 XOR";
"2 1 25583 25520 1573 XOR";
"2 1 1573 16952 25395 XOR";
"2 1 25647 25520 12522 XOR";
"2 1 16951 25520 12521 XOR";
"2 1 12522 12521 12520 AND";
"2 1 12520 25520 25521 XOR";
"2 1 25584 25521 1572 XOR";
"2 1 1572 16953 25396 XOR";
"2 1 25648 25521 12519 XOR";
"2 1 16952 25521 12518 XOR";
"2 1 12519 12518 12517 AND";
"2 1 12517 25521 25522 XOR";
"2 1 25585 25522 1571 XOR";
"2 1 1571 16954 25397 XOR";
"2 1 25649 25522 12516 XOR";
"2 1 16953 25522 12515 XOR";
"2 1 12516 12515 12514 AND";
"2 1 12514 25522 25523 XOR";
"2 1 25586 25523 1570 XOR";
"2 1 1570 16955 25398 XOR";
"2 1 25650 25523 12513 XOR";
"2 1 16954 25523 12512 XOR";
"2 1 12513 12512 12511 AND";
"2 1 12511 25523 25524 XOR";
"2 1 25587 25524 1569 XOR";
"2 1 1569 16956 25399 XOR";
"2 1 25651 25524 12510 XOR";
"2 1 16955 25524 12509 XOR";
"2 1 12510 12509 12508 AND";
"2 1 12508 25524 25525 XOR";
"2 1 25588 25525 1568 XOR";
"2 1 1568 16957 25400 XOR";
"2 1 25652 25525 12507 XOR";
"2 1 16956 25525 12506 XOR";
"2 1 12507 12506 12505 AND";
"2 1 12505 25525 25526 XOR";
"2 1 25589 25526 1567 XOR";
"2 1 1567 16958 25401 XOR";
"2 1 25653 25526 12504 XOR";
"2 1 16957 25526 12503 XOR";
"2 1 12504 12503 12502 AND";
"2 1 12502 25526 25527 XOR";
"2 1 25590 25527 1566 XOR";
"2 1 1566 16959 25402 XOR";
"2 1 25654 25527 12501 XOR";
"2 1 16958 25527 12500 XOR";
"2 1 12501 12500 12499 AND";
"2 1 12499 25527 25528 XOR";
"2 1 25591 25528 1565 XOR";
"2 1 1565 16960 25403 XOR";
"2 1 25655 25528 12498 XOR";
"2 1 16959 25528 12497 XOR";
"2 1 12498 12497 12496 AND";
"2 1 12496 25528 25529 XOR";
"2 1 25592 25529 1564 XOR";
"2 1 1564 16961 25404 XOR";
"2 1 25656 25529 12495 XOR";
"2 1 16960 25529 12494 XOR";
"2 1 12495 12494 12493 AND";
"2 1 12493 25529 25530 XOR";
"2 1 25593 25530 1563 XOR";
"2 1 1563 16962 25405 XOR";
"2 1 25657 25530 12492 XOR";
"2 1 16961 25530 12491 XOR";
"2 1 12492 12491 12490 AND";
"2 1 12490 25530 25531 XOR";
"2 1 25594 25531 1562 XOR";
"2 1 1562 16963 25406 XOR";
"2 1 25658 25531 12489 XOR";
"2 1 16962 25531 12488 XOR";
"2 1 12489 12488 12487 AND";
"2 1 12487 25531 25532 XOR";
"2 1 25595 25532 1561 XOR";
"2 1 1561 16964 25407 XOR";
"2 1 25659 25532 12486 XOR";
"2 1 16963 25532 12485 XOR";
"2 1 12486 12485 12484 AND";
"2 1 12484 25532 25533 XOR";
"2 1 25596 25533 1560 XOR";
"2 1 1560 16965 25408 XOR";
"2 1 25660 25533 12483 XOR";
"2 1 16964 25533 12482 XOR";
"2 1 12483 12482 12481 AND";
"2 1 12481 25533 25534 XOR";
"2 1 25597 25534 1559 XOR";
"2 1 1559 16966 25409 XOR";
"2 1 25661 25534 12480 XOR";
"2 1 16965 25534 12479 XOR";
"2 1 12480 12479 12478 AND";
"2 1 12478 25534 25535 XOR";
"2 1 25598 25535 1558 XOR";
"2 1 1558 16967 25410 XOR";
"2 1 25662 25535 12477 XOR";
"2 1 16966 25535 12476 XOR";
"2 1 12477 12476 12475 AND";
"2 1 12475 25535 25536 XOR";
"2 1 25599 25536 1557 XOR";
"2 1 1557 16968 25411 XOR";
"2 1 25663 25536 12474 XOR";
"2 1 16967 25536 12473 XOR";
"2 1 12474 12473 12472 AND";
"2 1 12472 25536 25537 XOR";
"2 1 25600 25537 1556 XOR";
"2 1 1556 16969 25412 XOR";
"2 1 25664 25537 12471 XOR";
"2 1 16968 25537 12470 XOR";
"2 1 12471 12470 12469 AND";
"2 1 12469 25537 25538 XOR";
"2 1 25601 25538 1555 XOR";
"2 1 1555 16970 25413 XOR";
"2 1 25665 25538 12468 XOR";
"2 1 16969 25538 12467 XOR";
"2 1 12468 12467 12466 AND";
"2 1 12466 25538 25539 XOR";
"2 1 25602 25539 1554 XOR";
"2 1 1554 16971 25414 XOR";
"2 1 25666 25539 12465 XOR";
"2 1 16970 25539 12464 XOR";
"2 1 12465 12464 12463 AND";
"2 1 12463 25539 25540 XOR";
"2 1 25603 25540 1553 XOR";
"2 1 1553 16972 25415 XOR";
"2 1 25667 25540 12462 XOR";
"2 1 16971 25540 12461 XOR";
"2 1 12462 12461 12460 AND";
"2 1 12460 25540 25541 XOR";
"2 1 25604 25541 1552 XOR";
"2 1 1552 16973 25416 XOR";
"2 1 25668 25541 12459 XOR";
"2 1 16972 25541 12458 XOR";
"2 1 12459 12458 12457 AND";
"2 1 12457 25541 25542 XOR";
"2 1 25605 25542 1551 XOR";
"2 1 1551 16974 25417 XOR";
"2 1 25669 25542 12456 XOR";
"2 1 16973 25542 12455 XOR";
"2 1 12456 12455 12454 AND";
"2 1 12454 25542 25543 XOR";
"2 1 25606 25543 1550 XOR";
"2 1 1550 16975 25418 XOR";
"2 1 25670 25543 12453 XOR";
"2 1 16974 25543 12452 XOR";
"2 1 12453 12452 12451 AND";
"2 1 12451 25543 25544 XOR";
"2 1 25607 25544 1549 XOR";
"2 1 1549 16976 25419 XOR";
"2 1 25671 25544 12450 XOR";
"2 1 16975 25544 12449 XOR";
"2 1 12450 12449 12448 AND";
"2 1 12448 25544 25545 XOR";
"2 1 25608 25545 1548 XOR";
"2 1 1548 16977 25420 XOR";
"2 1 25672 25545 12447 XOR";
"2 1 16976 25545 12446 XOR";
"2 1 12447 12446 12445 AND";
"2 1 12445 25545 25546 XOR";
"2 1 25609 25546 1547 XOR";
"2 1 1547 16978 25421 XOR";
"2 1 25673 25546 12444 XOR";
"2 1 16977 25546 12443 XOR";
"2 1 12444 12443 12442 AND";
"2 1 12442 25546 25547 XOR";
"2 1 25610 25547 1546 XOR";
"2 1 1546 16979 25422 XOR";
"2 1 25674 25547 12441 XOR";
"2 1 16978 25547 12440 XOR";
"2 1 12441 12440 12439 AND";
"2 1 12439 25547 25548 XOR";
"2 1 25611 25548 1545 XOR";
"2 1 1545 16980 25423 XOR";
"2 1 25675 25548 12438 XOR";
"2 1 16979 25548 12437 XOR";
"2 1 12438 12437 12436 AND";
"2 1 12436 25548 25549 XOR";
"2 1 25612 25549 1544 XOR";
"2 1 1544 16981 25424 XOR";
"2 1 25676 25549 12435 XOR";
"2 1 16980 25549 12434 XOR";
"2 1 12435 12434 12433 AND";
"2 1 12433 25549 25550 XOR";
"2 1 25613 25550 1543 XOR";
"2 1 1543 16982 25425 XOR";
"2 1 25677 25550 12432 XOR";
"2 1 16981 25550 12431 XOR";
"2 1 12432 12431 12430 AND";
"2 1 12430 25550 25551 XOR";
"2 1 25614 25551 1542 XOR";
"2 1 1542 16983 25426 XOR";
"2 1 25678 25551 12429 XOR";
"2 1 16982 25551 12428 XOR";
"2 1 12429 12428 12427 AND";
"2 1 12427 25551 25552 XOR";
"2 1 25615 25552 1541 XOR";
"2 1 1541 16984 25427 XOR";
"2 1 25679 25552 12426 XOR";
"2 1 16983 25552 12425 XOR";
"2 1 12426 12425 12424 AND";
"2 1 12424 25552 25553 XOR";
"2 1 25616 25553 1540 XOR";
"2 1 1540 16985 25428 XOR";
"2 1 25680 25553 12423 XOR";
"2 1 16984 25553 12422 XOR";
"2 1 12423 12422 12421 AND";
"2 1 12421 25553 25554 XOR";
"2 1 25617 25554 1539 XOR";
"2 1 1539 16986 25429 XOR";
"2 1 25681 25554 12420 XOR";
"2 1 16985 25554 12419 XOR";
"2 1 12420 12419 12418 AND";
"2 1 12418 25554 25555 XOR";
"2 1 25618 25555 1538 XOR";
"2 1 1538 16987 25430 XOR";
"2 1 25682 25555 12417 XOR";
"2 1 16986 25555 12416 XOR";
"2 1 12417 12416 12415 AND";
"2 1 12415 25555 25556 XOR";
"2 1 25619 25556 1537 XOR";
"2 1 1537 16988 25431 XOR";
"2 1 25683 25556 12414 XOR";
"2 1 16987 25556 12413 XOR";
"2 1 12414 12413 12412 AND";
"2 1 12412 25556 25557 XOR";
"2 1 25620 25557 1536 XOR";
"2 1 1536 16989 25432 XOR";
"2 1 25684 25557 12411 XOR";
"2 1 16988 25557 12410 XOR";
"2 1 12411 12410 12409 AND";
"2 1 12409 25557 25558 XOR";
"2 1 25621 25558 1535 XOR";
"2 1 1535 16990 25433 XOR";
"2 1 25685 25558 12408 XOR";
"2 1 16989 25558 12407 XOR";
"2 1 12408 12407 12406 AND";
"2 1 12406 25558 25559 XOR";
"2 1 25622 25559 1534 XOR";
"2 1 1534 16991 25434 XOR";
"2 1 25686 25559 12405 XOR";
"2 1 16990 25559 12404 XOR";
"2 1 12405 12404 12403 AND";
"2 1 12403 25559 25560 XOR";
"2 1 25623 25560 1533 XOR";
"2 1 1533 16992 25435 XOR";
"2 1 25687 25560 12402 XOR";
"2 1 16991 25560 12401 XOR";
"2 1 12402 12401 12400 AND";
"2 1 12400 25560 25561 XOR";
"2 1 25624 25561 1532 XOR";
"2 1 1532 16993 25436 XOR";
"2 1 25688 25561 12399 XOR";
"2 1 16992 25561 12398 XOR";
"2 1 12399 12398 12397 AND";
"2 1 12397 25561 25562 XOR";
"2 1 25625 25562 1531 XOR";
"2 1 1531 16994 25437 XOR";
"2 1 25689 25562 12396 XOR";
"2 1 16993 25562 12395 XOR";
"2 1 12396 12395 12394 AND";
"2 1 12394 25562 25563 XOR";
"2 1 25626 25563 1530 XOR";
"2 1 1530 16995 25438 XOR";
"2 1 25690 25563 12393 XOR";
"2 1 16994 25563 12392 XOR";
"2 1 12393 12392 12391 AND";
"2 1 12391 25563 25564 XOR";
"2 1 25627 25564 1529 XOR";
"2 1 1529 16996 25439 XOR";
"2 1 25691 25564 12390 XOR";
"2 1 16995 25564 12389 XOR";
"2 1 12390 12389 12388 AND";
"2 1 12388 25564 25565 XOR";
"2 1 25628 25565 1528 XOR";
"2 1 1528 16997 25440 XOR";
"2 1 25692 25565 12387 XOR";
"2 1 16996 25565 12386 XOR";
"2 1 12387 12386 12385 AND";
"2 1 12385 25565 25566 XOR";
"2 1 25629 25566 1527 XOR";
"2 1 1527 16998 25441 XOR";
"2 1 25693 25566 12384 XOR";
"2 1 16997 25566 12383 XOR";
"2 1 12384 12383 12382 AND";
"2 1 12382 25566 25567 XOR";
"2 1 25630 25567 1526 XOR";
"2 1 1526 16999 25442 XOR";
"2 1 25694 25567 12381 XOR";
"2 1 16998 25567 12380 XOR";
"2 1 12381 12380 12379 AND";
"2 1 12379 25567 25568 XOR";
"2 1 25631 25568 1525 XOR";
"2 1 1525 17000 25443 XOR";
"2 1 25695 25568 12378 XOR";
"2 1 16999 25568 12377 XOR";
"2 1 12378 12377 12376 AND";
"2 1 12376 25568 25569 XOR";
"2 1 25632 25569 1524 XOR";
"2 1 1524 17001 25444 XOR";
"2 1 25696 25569 12375 XOR";
"2 1 17000 25569 12374 XOR";
"2 1 12375 12374 12373 AND";
"2 1 12373 25569 25570 XOR";
"2 1 25633 25570 1523 XOR";
"2 1 1523 17002 25445 XOR";
"2 1 25697 25570 12372 XOR";
"2 1 17001 25570 12371 XOR";
"2 1 12372 12371 12370 AND";
"2 1 12370 25570 25571 XOR";
"2 1 25634 25571 1522 XOR";
"2 1 1522 17003 25446 XOR";
"2 1 25698 25571 12369 XOR";
"2 1 17002 25571 12368 XOR";
"2 1 12369 12368 12367 AND";
"2 1 12367 25571 25572 XOR";
"2 1 25635 25572 1521 XOR";
"2 1 1521 17004 25447 XOR";
"2 1 25699 25572 12366 XOR";
"2 1 17003 25572 12365 XOR";
"2 1 12366 12365 12364 AND";
"2 1 12364 25572 25573 XOR";
"2 1 25636 25573 1520 XOR";
"2 1 1520 17005 25448 XOR";
"2 1 25700 25573 12363 XOR";
"2 1 17004 25573 12362 XOR";
"2 1 12363 12362 12361 AND";
"2 1 12361 25573 25574 XOR";
"2 1 25637 25574 1519 XOR";
"2 1 1519 17006 25449 XOR";
"2 1 25701 25574 12360 XOR";
"2 1 17005 25574 12359 XOR";
"2 1 12360 12359 12358 AND";
"2 1 12358 25574 25575 XOR";
"2 1 25638 25575 1518 XOR";
"2 1 1518 17007 25450 XOR";
"2 1 25702 25575 12357 XOR";
"2 1 17006 25575 12356 XOR";
"2 1 12357 12356 12355 AND";
"2 1 12355 25575 25576 XOR";
"2 1 25639 25576 1517 XOR";
"2 1 1517 17008 25451 XOR";
"2 1 25703 25576 12354 XOR";
"2 1 17007 25576 12353 XOR";
"2 1 12354 12353 12352 AND";
"2 1 12352 25576 25577 XOR";
"2 1 25640 25577 1516 XOR";
"2 1 1516 17009 25452 XOR";
"2 1 25704 25577 12351 XOR";
"2 1 17008 25577 12350 XOR";
"2 1 12351 12350 12349 AND";
"2 1 12349 25577 25578 XOR";
"2 1 25641 25578 151 XOR";
"2 1 16672 4535 17556 AND";
"1 1 151 16671 INV";
"2 1 16860 16671 25453 XOR";
"2 1 1578 16671 25454 XOR";
"2 1 1577 16671 25455 XOR";
"2 1 1576 16671 25456 XOR";
"2 1 1575 16671 25457 XOR";
"2 1 1574 16671 25458 XOR";
"2 1 1573 16671 25459 XOR";
"2 1 1572 16671 25460 XOR";
"2 1 1571 16671 25461 XOR";
"2 1 1570 16671 25462 XOR";
"2 1 1569 16671 25463 XOR";
"2 1 1568 16671 25464 XOR";
"2 1 1567 16671 25465 XOR";
"2 1 1566 16671 25466 XOR";
"2 1 1565 16671 25467 XOR";
"2 1 1564 16671 25468 XOR";
"2 1 1563 16671 25469 XOR";
"2 1 1562 16671 25470 XOR";
"2 1 1561 16671 25471 XOR";
"2 1 1560 16671 25472 XOR";
"2 1 1559 16671 25473 XOR";
"2 1 1558 16671 25474 XOR";
"2 1 1557 16671 25475 XOR";
"2 1 1556 16671 25476 XOR";
"2 1 1555 16671 25477 XOR";
"2 1 1554 16671 25478 XOR";
"2 1 1553 16671 25479 XOR";
"2 1 1552 16671 25480 XOR";
"2 1 1551 16671 25481 XOR";
"2 1 1550 16671 25482 XOR";
"2 1 1549 16671 25483 XOR";
"2 1 1548 16671 25484 XOR";
"2 1 1547 16671 25485 XOR";
"2 1 1546 16671 25486 XOR";
"2 1 1545 16671 25487 XOR";
"2 1 1544 16671 25488 XOR";
"2 1 1543 16671 25489 XOR";
"2 1 1542 16671 25490 XOR";
"2 1 1541 16671 25491 XOR";
"2 1 1540 16671 25492 XOR";
"2 1 1539 16671 25493 XOR";
"2 1 1538 16671 25494 XOR";
"2 1 1537 16671 25495 XOR";
"2 1 1536 16671 25496 XOR";
"2 1 1535 16671 25497 XOR";
"2 1 1534 16671 25498 XOR";
"2 1 1533 16671 25499 XOR";
"2 1 1532 16671 25500 XOR";
"2 1 1531 16671 25501 XOR";
"2 1 1530 16671 25502 XOR";
"2 1 1529 16671 25503 XOR";
"2 1 1528 16671 25504 XOR";
"2 1 1527 16671 25505 XOR";
"2 1 1526 16671 25506 XOR";
"2 1 1525 16671 25507 XOR";
"2 1 1524 16671 25508 XOR";
"2 1 1523 16671 25509 XOR";
"2 1 1522 16671 25510 XOR";
"2 1 1521 16671 25511 XOR";
"2 1 1520 16671 25512 XOR";
"2 1 1519 16671 25513 XOR";
"2 1 1518 16671 25514 XOR";
"2 1 1517 16671 25515 XOR";
"2 1 25453 16946 25327 AND";
"2 1 25390 25327 1640 XOR";
"2 1 1640 16948 25202 XOR";
"2 1 25454 25327 12348 XOR";
"2 1 16947 25327 12347 XOR";
"2 1 12348 12347 12346 AND";
"2 1 12346 25327 25328 XOR";
"2 1 25391 25328 1639 XOR";
"2 1 1639 16949 25203 XOR";
"2 1 25455 25328 12345 XOR";
"2 1 16948 25328 12344 XOR";
"2 1 12345 12344 12343 AND";
"2 1 12343 25328 25329 XOR";
"2 1 25392 25329 1638 XOR";
"2 1 1638 16950 25204 XOR";
"2 1 25456 25329 12342 XOR";
"2 1 16949 25329 12341 XOR";
"2 1 12342 12341 12340 AND";
"2 1 12340 25329 25330 XOR";
"2 1 25393 25330 1637 XOR";
"2 1 1637 16951 25205 XOR";
"2 1 25457 25330 12339 XOR";
"2 1 16950 25330 12338 XOR";
"2 1 12339 12338 12337 AND";
"2 1 12337 25330 25331 XOR";
"2 1 25394 25331 1636 XOR";
"2 1 1636 16952 25206 XOR";
"2 1 25458 25331 12336 XOR";
"2 1 16951 25331 12335 XOR";
"2 1 12336 12335 12334 AND";
"2 1 12334 25331 25332 XOR";
"2 1 25395 25332 1635 XOR";
"2 1 1635 16953 25207 XOR";
"2 1 25459 25332 12333 XOR";
"2 1 16952 25332 12332 XOR";
"2 1 12333 12332 12331 AND";
"2 1 12331 25332 25333 XOR";
"2 1 25396 25333 1634 XOR";
"2 1 1634 16954 25208 XOR";
"2 1 25460 25333 12330 XOR";
"2 1 16953 25333 12329 XOR";
"2 1 12330 12329 12328 AND";
"2 1 12328 25333 25334 XOR";
"2 1 25397 25334 1633 XOR";
"2 1 1633 16955 25209 XOR";
"2 1 25461 25334 12327 XOR";
"2 1 16954 25334 12326 XOR";
"2 1 12327 12326 12325 AND";
"2 1 12325 25334 25335 XOR";
"2 1 25398 25335 1632 XOR";
"2 1 1632 16956 25210 XOR";
"2 1 25462 25335 12324 XOR";
"2 1 16955 25335 12323 XOR";
"2 1 12324 12323 12322 AND";
"2 1 12322 25335 25336 XOR";
"2 1 25399 25336 1631 XOR";
"2 1 1631 16957 25211 XOR";
"2 1 25463 25336 12321 XOR";
"2 1 16956 25336 12320 XOR";
"2 1 12321 12320 12319 AND";
"2 1 12319 25336 25337 XOR";
"2 1 25400 25337 1630 XOR";
"2 1 1630 16958 25212 XOR";
"2 1 25464 25337 12318 XOR";
"2 1 16957 25337 12317 XOR";
"2 1 12318 12317 12316 AND";
"2 1 12316 25337 25338 XOR";
"2 1 25401 25338 1629 XOR";
"2 1 1629 16959 25213 XOR";
"2 1 25465 25338 12315 XOR";
"2 1 16958 25338 12314 XOR";
"2 1 12315 12314 12313 AND";
"2 1 12313 25338 25339 XOR";
"2 1 25402 25339 1628 XOR";
"2 1 1628 16960 25214 XOR";
"2 1 25466 25339 12312 XOR";
"2 1 16959 25339 12311 XOR";
"2 1 12312 12311 12310 AND";
"2 1 12310 25339 25340 XOR";
"2 1 25403 25340 1627 XOR";
"2 1 1627 16961 25215 XOR";
"2 1 25467 25340 12309 XOR";
"2 1 16960 25340 12308 XOR";
"2 1 12309 12308 12307 AND";
"2 1 12307 25340 25341 XOR";
"2 1 25404 25341 1626 XOR";
"2 1 1626 16962 25216 XOR";
"2 1 25468 25341 12306 XOR";
"2 1 16961 25341 12305 XOR";
"2 1 12306 12305 12304 AND";
"2 1 12304 25341 25342 XOR";
"2 1 25405 25342 1625 XOR";
"2 1 1625 16963 25217 XOR";
"2 1 25469 25342 12303 XOR";
"2 1 16962 25342 12302 XOR";
"2 1 12303 12302 12301 AND";
"2 1 12301 25342 25343 XOR";
"2 1 25406 25343 1624 XOR";
"2 1 1624 16964 25218 XOR";
"2 1 25470 25343 12300 XOR";
"2 1 16963 25343 12299 XOR";
"2 1 12300 12299 12298 AND";
"2 1 12298 25343 25344 XOR";
"2 1 25407 25344 1623 XOR";
"2 1 1623 16965 25219 XOR";
"2 1 25471 25344 12297 XOR";
"2 1 16964 25344 12296 XOR";
"2 1 12297 12296 12295 AND";
"2 1 12295 25344 25345 XOR";
"2 1 25408 25345 1622 XOR";
"2 1 1622 16966 25220 XOR";
"2 1 25472 25345 12294 XOR";
"2 1 16965 25345 12293 XOR";
"2 1 12294 12293 12292 AND";
"2 1 12292 25345 25346 XOR";
"2 1 25409 25346 1621 XOR";
"2 1 1621 16967 25221 XOR";
"2 1 25473 25346 12291 XOR";
"2 1 16966 25346 12290 XOR";
"2 1 12291 12290 12289 AND";
"2 1 12289 25346 25347 XOR";
"2 1 25410 25347 1620 XOR";
"2 1 1620 16968 25222 XOR";
"2 1 25474 25347 12288 XOR";
"2 1 16967 25347 12287 XOR";
"2 1 12288 12287 12286 AND";
"2 1 12286 25347 25348 XOR";
"2 1 25411 25348 1619 XOR";
"2 1 1619 16969 25223 XOR";
"2 1 25475 25348 12285 XOR";
"2 1 16968 25348 12284 XOR";
"2 1 12285 12284 12283 AND";
"2 1 12283 25348 25349 XOR";
"2 1 25412 25349 1618 XOR";
"2 1 1618 16970 25224 XOR";
"2 1 25476 25349 12282 XOR";
"2 1 16969 25349 12281 XOR";
"2 1 12282 12281 12280 AND";
"2 1 12280 25349 25350 XOR";
"2 1 25413 25350 1617 XOR";
"2 1 1617 16971 25225 XOR";
"2 1 25477 25350 12279 XOR";
"2 1 16970 25350 12278 XOR";
"2 1 12279 12278 12277 AND";
"2 1 12277 25350 25351 XOR";
"2 1 25414 25351 1616 XOR";
"2 1 1616 16972 25226 XOR";
"2 1 25478 25351 12276 XOR";
"2 1 16971 25351 12275 XOR";
"2 1 12276 12275 12274 AND";
"2 1 12274 25351 25352 XOR";
"2 1 25415 25352 1615 XOR";
"2 1 1615 16973 25227 XOR";
"2 1 25479 25352 12273 XOR";
"2 1 16972 25352 12272 XOR";
"2 1 12273 12272 12271 AND";
"2 1 12271 25352 25353 XOR";
"2 1 25416 25353 1614 XOR";
"2 1 1614 16974 25228 XOR";
"2 1 25480 25353 12270 XOR";
"2 1 16973 25353 12269 XOR";
"2 1 12270 12269 12268 AND";
"2 1 12268 25353 25354 XOR";
"2 1 25417 25354 1613 XOR";
"2 1 1613 16975 25229 XOR";
"2 1 25481 25354 12267 XOR";
"2 1 16974 25354 12266 XOR";
"2 1 12267 12266 12265 AND";
"2 1 12265 25354 25355 XOR";
"2 1 25418 25355 1612 XOR";
"2 1 1612 16976 25230 XOR";
"2 1 25482 25355 12264 XOR";
"2 1 16975 25355 12263 XOR";
"2 1 12264 12263 12262 AND";
"2 1 12262 25355 25356 XOR";
"2 1 25419 25356 1611 XOR";
"2 1 1611 16977 25231 XOR";
"2 1 25483 25356 12261 XOR";
"2 1 16976 25356 12260 XOR";
"2 1 12261 12260 12259 AND";
"2 1 12259 25356 25357 XOR";
"2 1 25420 25357 1610 XOR";
"2 1 1610 16978 25232 XOR";
"2 1 25484 25357 12258 XOR";
"2 1 16977 25357 12257 XOR";
"2 1 12258 12257 12256 AND";
"2 1 12256 25357 25358 XOR";
"2 1 25421 25358 1609 XOR";
"2 1 1609 16979 25233 XOR";
"2 1 25485 25358 12255 XOR";
"2 1 16978 25358 12254 XOR";
"2 1 12255 12254 12253 AND";
"2 1 12253 25358 25359 XOR";
"2 1 25422 25359 1608 XOR";
"2 1 1608 16980 25234 XOR";
"2 1 25486 25359 12252 XOR";
"2 1 16979 25359 12251 XOR";
"2 1 12252 12251 12250 AND";
"2 1 12250 25359 25360 XOR";
"2 1 25423 25360 1607 XOR";
"2 1 1607 16981 25235 XOR";
"2 1 25487 25360 12249 XOR";
"2 1 16980 25360 12248 XOR";
"2 1 12249 12248 12247 AND";
"2 1 12247 25360 25361 XOR";
"2 1 25424 25361 1606 XOR";
"2 1 1606 16982 25236 XOR";
"2 1 25488 25361 12246 XOR";
"2 1 16981 25361 12245 XOR";
"2 1 12246 12245 12244 AND";
"2 1 12244 25361 25362 XOR";
"2 1 25425 25362 1605 XOR";
"2 1 1605 16983 25237 XOR";
"2 1 25489 25362 12243 XOR";
"2 1 16982 25362 12242 XOR";
"2 1 12243 12242 12241 AND";
"2 1 12241 25362 25363 XOR";
"2 1 25426 25363 1604 XOR";
"2 1 1604 16984 25238 XOR";
"2 1 25490 25363 12240 XOR";
"2 1 16983 25363 12239 XOR";
"2 1 12240 12239 12238 AND";
"2 1 12238 25363 25364 XOR";
"2 1 25427 25364 1603 XOR";
"2 1 1603 16985 25239 XOR";
"2 1 25491 25364 12237 XOR";
"2 1 16984 25364 12236 XOR";
"2 1 12237 12236 12235 AND";
"2 1 12235 25364 25365 XOR";
"2 1 25428 25365 1602 XOR";
"2 1 1602 16986 25240 XOR";
"2 1 25492 25365 12234 XOR";
"2 1 16985 25365 12233 XOR";
"2 1 12234 12233 12232 AND";
"2 1 12232 25365 25366 XOR";
"2 1 25429 25366 1601 XOR";
"2 1 1601 16987 25241 XOR";
"2 1 25493 25366 12231 XOR";
"2 1 16986 25366 12230 XOR";
"2 1 12231 12230 12229 AND";
"2 1 12229 25366 25367 XOR";
"2 1 25430 25367 1600 XOR";
"2 1 1600 16988 25242 XOR";
"2 1 25494 25367 12228 XOR";
"2 1 16987 25367 12227 XOR";
"2 1 12228 12227 12226 AND";
"2 1 12226 25367 25368 XOR";
"2 1 25431 25368 1599 XOR";
"2 1 1599 16989 25243 XOR";
"2 1 25495 25368 12225 XOR";
"2 1 16988 25368 12224 XOR";
"2 1 12225 12224 12223 AND";
"2 1 12223 25368 25369 XOR";
"2 1 25432 25369 1598 XOR";
"2 1 1598 16990 25244 XOR";
"2 1 25496 25369 12222 XOR";
"2 1 16989 25369 12221 XOR";
"2 1 12222 12221 12220 AND";
"2 1 12220 25369 25370 XOR";
"2 1 25433 25370 1597 XOR";
"2 1 1597 16991 25245 XOR";
"2 1 25497 25370 12219 XOR";
"2 1 16990 25370 12218 XOR";
"2 1 12219 12218 12217 AND";
"2 1 12217 25370 25371 XOR";
"2 1 25434 25371 1596 XOR";
"2 1 1596 16992 25246 XOR";
"2 1 25498 25371 12216 XOR";
"2 1 16991 25371 12215 XOR";
"2 1 12216 12215 12214 AND";
"2 1 12214 25371 25372 XOR";
"2 1 25435 25372 1595 XOR";
"2 1 1595 16993 25247 XOR";
"2 1 25499 25372 12213 XOR";
"2 1 16992 25372 12212 XOR";
"2 1 12213 12212 12211 AND";
"2 1 12211 25372 25373 XOR";
"2 1 25436 25373 1594 XOR";
"2 1 1594 16994 25248 XOR";
"2 1 25500 25373 12210 XOR";
"2 1 16993 25373 12209 XOR";
"2 1 12210 12209 12208 AND";
"2 1 12208 25373 25374 XOR";
"2 1 25437 25374 1593 XOR";
"2 1 1593 16995 25249 XOR";
"2 1 25501 25374 12207 XOR";
"2 1 16994 25374 12206 XOR";
"2 1 12207 12206 12205 AND";
"2 1 12205 25374 25375 XOR";
"2 1 25438 25375 1592 XOR";
"2 1 1592 16996 25250 XOR";
"2 1 25502 25375 12204 XOR";
"2 1 16995 25375 12203 XOR";
"2 1 12204 12203 12202 AND";
"2 1 12202 25375 25376 XOR";
"2 1 25439 25376 1591 XOR";
"2 1 1591 16997 25251 XOR";
"2 1 25503 25376 12201 XOR";
"2 1 16996 25376 12200 XOR";
"2 1 12201 12200 12199 AND";
"2 1 12199 25376 25377 XOR";
"2 1 25440 25377 1590 XOR";
"2 1 1590 16998 25252 XOR";
"2 1 25504 25377 12198 XOR";
"2 1 16997 25377 12197 XOR";
"2 1 12198 12197 12196 AND";
"2 1 12196 25377 25378 XOR";
"2 1 25441 25378 1589 XOR";
"2 1 1589 16999 25253 XOR";
"2 1 25505 25378 12195 XOR";
"2 1 16998 25378 12194 XOR";
"2 1 12195 12194 12193 AND";
"2 1 12193 25378 25379 XOR";
"2 1 25442 25379 1588 XOR";
"2 1 1588 17000 25254 XOR";
"2 1 25506 25379 12192 XOR";
"2 1 16999 25379 12191 XOR";
"2 1 12192 12191 12190 AND";
"2 1 12190 25379 25380 XOR";
"2 1 25443 25380 1587 XOR";
"2 1 1587 17001 25255 XOR";
"2 1 25507 25380 12189 XOR";
"2 1 17000 25380 12188 XOR";
"2 1 12189 12188 12187 AND";
"2 1 12187 25380 25381 XOR";
"2 1 25444 25381 1586 XOR";
"2 1 1586 17002 25256 XOR";
"2 1 25508 25381 12186 XOR";
"2 1 17001 25381 12185 XOR";
"2 1 12186 12185 12184 AND";
"2 1 12184 25381 25382 XOR";
"2 1 25445 25382 1585 XOR";
"2 1 1585 17003 25257 XOR";
"2 1 25509 25382 12183 XOR";
"2 1 17002 25382 12182 XOR";
"2 1 12183 12182 12181 AND";
"2 1 12181 25382 25383 XOR";
"2 1 25446 25383 1584 XOR";
"2 1 1584 17004 25258 XOR";
"2 1 25510 25383 12180 XOR";
"2 1 17003 25383 12179 XOR";
"2 1 12180 12179 12178 AND";
"2 1 12178 25383 25384 XOR";
"2 1 25447 25384 1583 XOR";
"2 1 1583 17005 25259 XOR";
"2 1 25511 25384 12177 XOR";
"2 1 17004 25384 12176 XOR";
"2 1 12177 12176 12175 AND";
"2 1 12175 25384 25385 XOR";
"2 1 25448 25385 1582 XOR";
"2 1 1582 17006 25260 XOR";
"2 1 25512 25385 12174 XOR";
"2 1 17005 25385 12173 XOR";
"2 1 12174 12173 12172 AND";
"2 1 12172 25385 25386 XOR";
"2 1 25449 25386 1581 XOR";
"2 1 1581 17007 25261 XOR";
"2 1 25513 25386 12171 XOR";
"2 1 17006 25386 12170 XOR";
"2 1 12171 12170 12169 AND";
"2 1 12169 25386 25387 XOR";
"2 1 25450 25387 1580 XOR";
"2 1 1580 17008 25262 XOR";
"2 1 25514 25387 12168 XOR";
"2 1 17007 25387 12167 XOR";
"2 1 12168 12167 12166 AND";
"2 1 12166 25387 25388 XOR";
"2 1 25451 25388 1579 XOR";
"2 1 1579 17009 25263 XOR";
"2 1 25515 25388 12165 XOR";
"2 1 17008 25388 12164 XOR";
"2 1 12165 12164 12163 AND";
"2 1 12163 25388 25389 XOR";
"2 1 25452 25389 152 XOR";
"1 1 152 16670 INV";
"2 1 16859 16670 25264 XOR";
"2 1 1641 16670 25265 XOR";
"2 1 1640 16670 25266 XOR";
"2 1 1639 16670 25267 XOR";
"2 1 1638 16670 25268 XOR";
"2 1 1637 16670 25269 XOR";
"2 1 1636 16670 25270 XOR";
"2 1 1635 16670 25271 XOR";
"2 1 1634 16670 25272 XOR";
"2 1 1633 16670 25273 XOR";
"2 1 1632 16670 25274 XOR";
"2 1 1631 16670 25275 XOR";
"2 1 1630 16670 25276 XOR";
"2 1 1629 16670 25277 XOR";
"2 1 1628 16670 25278 XOR";
"2 1 1627 16670 25279 XOR";
"2 1 1626 16670 25280 XOR";
"2 1 1625 16670 25281 XOR";
"2 1 1624 16670 25282 XOR";
"2 1 1623 16670 25283 XOR";
"2 1 1622 16670 25284 XOR";
"2 1 1621 16670 25285 XOR";
"2 1 1620 16670 25286 XOR";
"2 1 1619 16670 25287 XOR";
"2 1 1618 16670 25288 XOR";
"2 1 1617 16670 25289 XOR";
"2 1 1616 16670 25290 XOR";
"2 1 1615 16670 25291 XOR";
"2 1 1614 16670 25292 XOR";
"2 1 1613 16670 25293 XOR";
"2 1 1612 16670 25294 XOR";
"2 1 1611 16670 25295 XOR";
"2 1 1610 16670 25296 XOR";
"2 1 1609 16670 25297 XOR";
"2 1 1608 16670 25298 XOR";
"2 1 1607 16670 25299 XOR";
"2 1 1606 16670 25300 XOR";
"2 1 1605 16670 25301 XOR";
"2 1 1604 16670 25302 XOR";
"2 1 1603 16670 25303 XOR";
"2 1 1602 16670 25304 XOR";
"2 1 1601 16670 25305 XOR";
"2 1 1600 16670 25306 XOR";
"2 1 1599 16670 25307 XOR";
"2 1 1598 16670 25308 XOR";
"2 1 1597 16670 25309 XOR";
"2 1 1596 16670 25310 XOR";
"2 1 1595 16670 25311 XOR";
"2 1 1594 16670 25312 XOR";
"2 1 1593 16670 25313 XOR";
"2 1 1592 16670 25314 XOR";
"2 1 1591 16670 25315 XOR";
"2 1 1590 16670 25316 XOR";
"2 1 1589 16670 25317 XOR";
"2 1 1588 16670 25318 XOR";
"2 1 1587 16670 25319 XOR";
"2 1 1586 16670 25320 XOR";
"2 1 1585 16670 25321 XOR";
"2 1 1584 16670 25322 XOR";
"2 1 1583 16670 25323 XOR";
"2 1 1582 16670 25324 XOR";
"2 1 1581 16670 25325 XOR";
"2 1 1580 16670 25326 XOR";
"2 1 25264 16946 25138 AND";
"2 1 25201 25138 1703 XOR";
"2 1 1703 16948 25013 XOR";
"2 1 25265 25138 12162 XOR";
"2 1 16947 25138 12161 XOR";
"2 1 12162 12161 12160 AND";
"2 1 12160 25138 25139 XOR";
"2 1 25202 25139 1702 XOR";
"2 1 1702 16949 25014 XOR";
"2 1 25266 25139 12159 XOR";
"2 1 16948 25139 12158 XOR";
"2 1 12159 12158 12157 AND";
"2 1 12157 25139 25140 XOR";
"2 1 25203 25140 1701 XOR";
"2 1 1701 16950 25015 XOR";
"2 1 25267 25140 12156 XOR";
"2 1 16949 25140 12155 XOR";
"2 1 12156 12155 12154 AND";
"2 1 12154 25140 25141 XOR";
"2 1 25204 25141 1700 XOR";
"2 1 1700 16951 25016 XOR";
"2 1 25268 25141 12153 XOR";
"2 1 16950 25141 12152 XOR";
"2 1 12153 12152 12151 AND";
"2 1 12151 25141 25142 XOR";
"2 1 25205 25142 1699 XOR";
"2 1 1699 16952 25017 XOR";
"2 1 25269 25142 12150 XOR";
"2 1 16951 25142 12149 XOR";
"2 1 12150 12149 12148 AND";
"2 1 12148 25142 25143 XOR";
"2 1 25206 25143 1698 XOR";
"2 1 1698 16953 25018 XOR";
"2 1 25270 25143 12147 XOR";
"2 1 16952 25143 12146 XOR";
"2 1 12147 12146 12145 AND";
"2 1 12145 25143 25144 XOR";
"2 1 25207 25144 1697 XOR";
"2 1 1697 16954 25019 XOR";
"2 1 25271 25144 12144 XOR";
"2 1 16953 25144 12143 XOR";
"2 1 12144 12143 12142 AND";
"2 1 12142 25144 25145 XOR";
"2 1 25208 25145 1696 XOR";
"2 1 1696 16955 25020 XOR";
"2 1 25272 25145 12141 XOR";
"2 1 16954 25145 12140 XOR";
"2 1 12141 12140 12139 AND";
"2 1 12139 25145 25146 XOR";
"2 1 25209 25146 1695 XOR";
"2 1 1695 16956 25021 XOR";
"2 1 25273 25146 12138 XOR";
"2 1 16955 25146 12137 XOR";
"2 1 12138 12137 12136 AND";
"2 1 12136 25146 25147 XOR";
"2 1 25210 25147 1694 XOR";
"2 1 1694 16957 25022 XOR";
"2 1 25274 25147 12135 XOR";
"2 1 16956 25147 12134 XOR";
"2 1 12135 12134 12133 AND";
"2 1 12133 25147 25148 XOR";
"2 1 25211 25148 1693 XOR";
"2 1 1693 16958 25023 XOR";
"2 1 25275 25148 12132 XOR";
"2 1 16957 25148 12131 XOR";
"2 1 12132 12131 12130 AND";
"2 1 12130 25148 25149 XOR";
"2 1 25212 25149 1692 XOR";
"2 1 1692 16959 25024 XOR";
"2 1 25276 25149 12129 XOR";
"2 1 16958 25149 12128 XOR";
"2 1 12129 12128 12127 AND";
"2 1 12127 25149 25150 XOR";
"2 1 25213 25150 1691 XOR";
"2 1 1691 16960 25025 XOR";
"2 1 25277 25150 12126 XOR";
"2 1 16959 25150 12125 XOR";
"2 1 12126 12125 12124 AND";
"2 1 12124 25150 25151 XOR";
"2 1 25214 25151 1690 XOR";
"2 1 1690 16961 25026 XOR";
"2 1 25278 25151 12123 XOR";
"2 1 16960 25151 12122 XOR";
"2 1 12123 12122 12121 AND";
"2 1 12121 25151 25152 XOR";
"2 1 25215 25152 1689 XOR";
"2 1 1689 16962 25027 XOR";
"2 1 25279 25152 12120 XOR";
"2 1 16961 25152 12119 XOR";
"2 1 12120 12119 12118 AND";
"2 1 12118 25152 25153 XOR";
"2 1 25216 25153 1688 XOR";
"2 1 1688 16963 25028 XOR";
"2 1 25280 25153 12117 XOR";
"2 1 16962 25153 12116 XOR";
"2 1 12117 12116 12115 AND";
"2 1 12115 25153 25154 XOR";
"2 1 25217 25154 1687 XOR";
"2 1 1687 16964 25029 XOR";
"2 1 25281 25154 12114 XOR";
"2 1 16963 25154 12113 XOR";
"2 1 12114 12113 12112 AND";
"2 1 12112 25154 25155 XOR";
"2 1 25218 25155 1686 XOR";
"2 1 1686 16965 25030 XOR";
"2 1 25282 25155 12111 XOR";
"2 1 16964 25155 12110 XOR";
"2 1 12111 12110 12109 AND";
"2 1 12109 25155 25156 XOR";
"2 1 25219 25156 1685 XOR";
"2 1 1685 16966 25031 XOR";
"2 1 25283 25156 12108 XOR";
"2 1 16965 25156 12107 XOR";
"2 1 12108 12107 12106 AND";
"2 1 12106 25156 25157 XOR";
"2 1 25220 25157 1684 XOR";
"2 1 1684 16967 25032 XOR";
"2 1 25284 25157 12105 XOR";
"2 1 16966 25157 12104 XOR";
"2 1 12105 12104 12103 AND";
"2 1 12103 25157 25158 XOR";
"2 1 25221 25158 1683 XOR";
"2 1 1683 16968 25033 XOR";
"2 1 25285 25158 12102 XOR";
"2 1 16967 25158 12101 XOR";
"2 1 12102 12101 12100 AND";
"2 1 12100 25158 25159 XOR";
"2 1 25222 25159 1682 XOR";
"2 1 1682 16969 25034 XOR";
"2 1 25286 25159 12099 XOR";
"2 1 16968 25159 12098 XOR";
"2 1 12099 12098 12097 AND";
"2 1 12097 25159 25160 XOR";
"2 1 25223 25160 1681 XOR";
"2 1 1681 16970 25035 XOR";
"2 1 25287 25160 12096 XOR";
"2 1 16969 25160 12095 XOR";
"2 1 12096 12095 12094 AND";
"2 1 12094 25160 25161 XOR";
"2 1 25224 25161 1680 XOR";
"2 1 1680 16971 25036 XOR";
"2 1 25288 25161 12093 XOR";
"2 1 16970 25161 12092 XOR";
"2 1 12093 12092 12091 AND";
"2 1 12091 25161 25162 XOR";
"2 1 25225 25162 1679 XOR";
"2 1 1679 16972 25037 XOR";
"2 1 25289 25162 12090 XOR";
"2 1 16971 25162 12089 XOR";
"2 1 12090 12089 12088 AND";
"2 1 12088 25162 25163 XOR";
"2 1 25226 25163 1678 XOR";
"2 1 1678 16973 25038 XOR";
"2 1 25290 25163 12087 XOR";
"2 1 16972 25163 12086 XOR";
"2 1 12087 12086 12085 AND";
"2 1 12085 25163 25164 XOR";
"2 1 25227 25164 1677 XOR";
"2 1 1677 16974 25039 XOR";
"2 1 25291 25164 12084 XOR";
"2 1 16973 25164 12083 XOR";
"2 1 12084 12083 12082 AND";
"2 1 12082 25164 25165 XOR";
"2 1 25228 25165 1676 XOR";
"2 1 1676 16975 25040 XOR";
"2 1 25292 25165 12081 XOR";
"2 1 16974 25165 12080 XOR";
"2 1 12081 12080 12079 AND";
"2 1 12079 25165 25166 XOR";
"2 1 25229 25166 1675 XOR";
"2 1 1675 16976 25041 XOR";
"2 1 25293 25166 12078 XOR";
"2 1 16975 25166 12077 XOR";
"2 1 12078 12077 12076 AND";
"2 1 12076 25166 25167 XOR";
"2 1 25230 25167 1674 XOR";
"2 1 1674 16977 25042 XOR";
"2 1 25294 25167 12075 XOR";
"2 1 16976 25167 12074 XOR";
"2 1 12075 12074 12073 AND";
"2 1 12073 25167 25168 XOR";
"2 1 25231 25168 1673 XOR";
"2 1 1673 16978 25043 XOR";
"2 1 25295 25168 12072 XOR";
"2 1 16977 25168 12071 XOR";
"2 1 12072 12071 12070 AND";
"2 1 12070 25168 25169 XOR";
"2 1 25232 25169 1672 XOR";
"2 1 1672 16979 25044 XOR";
"2 1 25296 25169 12069 XOR";
"2 1 16978 25169 12068 XOR";
"2 1 12069 12068 12067 AND";
"2 1 12067 25169 25170 XOR";
"2 1 25233 25170 1671 XOR";
"2 1 1671 16980 25045 XOR";
"2 1 25297 25170 12066 XOR";
"2 1 16979 25170 12065 XOR";
"2 1 12066 12065 12064 AND";
"2 1 12064 25170 25171 XOR";
"2 1 25234 25171 1670 XOR";
"2 1 1670 16981 25046 XOR";
"2 1 25298 25171 12063 XOR";
"2 1 16980 25171 12062 XOR";
"2 1 12063 12062 12061 AND";
"2 1 12061 25171 25172 XOR";
"2 1 25235 25172 1669 XOR";
"2 1 1669 16982 25047 XOR";
"2 1 25299 25172 12060 XOR";
"2 1 16981 25172 12059 XOR";
"2 1 12060 12059 12058 AND";
"2 1 12058 25172 25173 XOR";
"2 1 25236 25173 1668 XOR";
"2 1 1668 16983 25048 XOR";
"2 1 25300 25173 12057 XOR";
"2 1 16982 25173 12056 XOR";
"2 1 12057 12056 12055 AND";
"2 1 12055 25173 25174 XOR";
"2 1 25237 25174 1667 XOR";
"2 1 1667 16984 25049 XOR";
"2 1 25301 25174 12054 XOR";
"2 1 16983 25174 12053 XOR";
"2 1 12054 12053 12052 AND";
"2 1 12052 25174 25175 XOR";
"2 1 25238 25175 1666 XOR";
"2 1 1666 16985 25050 XOR";
"2 1 25302 25175 12051 XOR";
"2 1 16984 25175 12050 XOR";
"2 1 12051 12050 12049 AND";
"2 1 12049 25175 25176 XOR";
"2 1 25239 25176 1665 XOR";
"2 1 1665 16986 25051 XOR";
"2 1 25303 25176 12048 XOR";
"2 1 16985 25176 12047 XOR";
"2 1 12048 12047 12046 AND";
"2 1 12046 25176 25177 XOR";
"2 1 25240 25177 1664 XOR";
"2 1 1664 16987 25052 XOR";
"2 1 25304 25177 12045 XOR";
"2 1 16986 25177 12044 XOR";
"2 1 12045 12044 12043 AND";
"2 1 12043 25177 25178 XOR";
"2 1 25241 25178 1663 XOR";
"2 1 1663 16988 25053 XOR";
"2 1 25305 25178 12042 XOR";
"2 1 16987 25178 12041 XOR";
"2 1 12042 12041 12040 AND";
"2 1 12040 25178 25179 XOR";
"2 1 25242 25179 1662 XOR";
"2 1 1662 16989 25054 XOR";
"2 1 25306 25179 12039 XOR";
"2 1 16988 25179 12038 XOR";
"2 1 12039 12038 12037 AND";
"2 1 12037 25179 25180 XOR";
"2 1 25243 25180 1661 XOR";
"2 1 1661 16990 25055 XOR";
"2 1 25307 25180 12036 XOR";
"2 1 16989 25180 12035 XOR";
"2 1 12036 12035 12034 AND";
"2 1 12034 25180 25181 XOR";
"2 1 25244 25181 1660 XOR";
"2 1 1660 16991 25056 XOR";
"2 1 25308 25181 12033 XOR";
"2 1 16990 25181 12032 XOR";
"2 1 12033 12032 12031 AND";
"2 1 12031 25181 25182 XOR";
"2 1 25245 25182 1659 XOR";
"2 1 1659 16992 25057 XOR";
"2 1 25309 25182 12030 XOR";
"2 1 16991 25182 12029 XOR";
"2 1 12030 12029 12028 AND";
"2 1 12028 25182 25183 XOR";
"2 1 25246 25183 1658 XOR";
"2 1 1658 16993 25058 XOR";
"2 1 25310 25183 12027 XOR";
"2 1 16992 25183 12026 XOR";
"2 1 12027 12026 12025 AND";
"2 1 12025 25183 25184 XOR";
"2 1 25247 25184 1657 XOR";
"2 1 1657 16994 25059 XOR";
"2 1 25311 25184 12024 XOR";
"2 1 16993 25184 12023 XOR";
"2 1 12024 12023 12022 AND";
"2 1 12022 25184 25185 XOR";
"2 1 25248 25185 1656 XOR";
"2 1 1656 16995 25060 XOR";
"2 1 25312 25185 12021 XOR";
"2 1 16994 25185 12020 XOR";
"2 1 12021 12020 12019 AND";
"2 1 12019 25185 25186 XOR";
"2 1 25249 25186 1655 XOR";
"2 1 1655 16996 25061 XOR";
"2 1 25313 25186 12018 XOR";
"2 1 16995 25186 12017 XOR";
"2 1 12018 12017 12016 AND";
"2 1 12016 25186 25187 XOR";
"2 1 25250 25187 1654 XOR";
"2 1 1654 16997 25062 XOR";
"2 1 25314 25187 12015 XOR";
"2 1 16996 25187 12014 XOR";
"2 1 12015 12014 12013 AND";
"2 1 12013 25187 25188 XOR";
"2 1 25251 25188 1653 XOR";
"2 1 1653 16998 25063 XOR";
"2 1 25315 25188 12012 XOR";
"2 1 16997 25188 12011 XOR";
"2 1 12012 12011 12010 AND";
"2 1 12010 25188 25189 XOR";
"2 1 25252 25189 1652 XOR";
"2 1 1652 16999 25064 XOR";
"2 1 25316 25189 12009 XOR";
"2 1 16998 25189 12008 XOR";
"2 1 12009 12008 12007 AND";
"2 1 12007 25189 25190 XOR";
"2 1 25253 25190 1651 XOR";
"2 1 1651 17000 25065 XOR";
"2 1 25317 25190 12006 XOR";
"2 1 16999 25190 12005 XOR";
"2 1 12006 12005 12004 AND";
"2 1 12004 25190 25191 XOR";
"2 1 25254 25191 1650 XOR";
"2 1 1650 17001 25066 XOR";
"2 1 25318 25191 12003 XOR";
"2 1 17000 25191 12002 XOR";
"2 1 12003 12002 12001 AND";
"2 1 12001 25191 25192 XOR";
"2 1 25255 25192 1649 XOR";
"2 1 1649 17002 25067 XOR";
"2 1 25319 25192 12000 XOR";
"2 1 17001 25192 11999 XOR";
"2 1 12000 11999 11998 AND";
"2 1 11998 25192 25193 XOR";
"2 1 25256 25193 1648 XOR";
"2 1 1648 17003 25068 XOR";
"2 1 25320 25193 11997 XOR";
"2 1 17002 25193 11996 XOR";
"2 1 11997 11996 11995 AND";
"2 1 11995 25193 25194 XOR";
"2 1 25257 25194 1647 XOR";
"2 1 1647 17004 25069 XOR";
"2 1 25321 25194 11994 XOR";
"2 1 17003 25194 11993 XOR";
"2 1 11994 11993 11992 AND";
"2 1 11992 25194 25195 XOR";
"2 1 25258 25195 1646 XOR";
"2 1 1646 17005 25070 XOR";
"2 1 25322 25195 11991 XOR";
"2 1 17004 25195 11990 XOR";
"2 1 11991 11990 11989 AND";
"2 1 11989 25195 25196 XOR";
"2 1 25259 25196 1645 XOR";
"2 1 1645 17006 25071 XOR";
"2 1 25323 25196 11988 XOR";
"2 1 17005 25196 11987 XOR";
"2 1 11988 11987 11986 AND";
"2 1 11986 25196 25197 XOR";
"2 1 25260 25197 1644 XOR";
"2 1 1644 17007 25072 XOR";
"2 1 25324 25197 11985 XOR";
"2 1 17006 25197 11984 XOR";
"2 1 11985 11984 11983 AND";
"2 1 11983 25197 25198 XOR";
"2 1 25261 25198 1643 XOR";
"2 1 1643 17008 25073 XOR";
"2 1 25325 25198 11982 XOR";
"2 1 17007 25198 11981 XOR";
"2 1 11982 11981 11980 AND";
"2 1 11980 25198 25199 XOR";
"2 1 25262 25199 1642 XOR";
"2 1 1642 17009 25074 XOR";
"2 1 25326 25199 11979 XOR";
"2 1 17008 25199 11978 XOR";
"2 1 11979 11978 11977 AND";
"2 1 11977 25199 25200 XOR";
"2 1 25263 25200 153 XOR";
"2 1 16670 4535 17554 AND";
"1 1 153 16669 INV";
"2 1 16858 16669 25075 XOR";
"2 1 1704 16669 25076 XOR";
"2 1 1703 16669 25077 XOR";
"2 1 1702 16669 25078 XOR";
"2 1 1701 16669 25079 XOR";
"2 1 1700 16669 25080 XOR";
"2 1 1699 16669 25081 XOR";
"2 1 1698 16669 25082 XOR";
"2 1 1697 16669 25083 XOR";
"2 1 1696 16669 25084 XOR";
"2 1 1695 16669 25085 XOR";
"2 1 1694 16669 25086 XOR";
"2 1 1693 16669 25087 XOR";
"2 1 1692 16669 25088 XOR";
"2 1 1691 16669 25089 XOR";
"2 1 1690 16669 25090 XOR";
"2 1 1689 16669 25091 XOR";
"2 1 1688 16669 25092 XOR";
"2 1 1687 16669 25093 XOR";
"2 1 1686 16669 25094 XOR";
"2 1 1685 16669 25095 XOR";
"2 1 1684 16669 25096 XOR";
"2 1 1683 16669 25097 XOR";
"2 1 1682 16669 25098 XOR";
"2 1 1681 16669 25099 XOR";
"2 1 1680 16669 25100 XOR";
"2 1 1679 16669 25101 XOR";
"2 1 1678 16669 25102 XOR";
"2 1 1677 16669 25103 XOR";
"2 1 1676 16669 25104 XOR";
"2 1 1675 16669 25105 XOR";
"2 1 1674 16669 25106 XOR";
"2 1 1673 16669 25107 XOR";
"2 1 1672 16669 25108 XOR";
"2 1 1671 16669 25109 XOR";
"2 1 1670 16669 25110 XOR";
"2 1 1669 16669 25111 XOR";
"2 1 1668 16669 25112 XOR";
"2 1 1667 16669 25113 XOR";
"2 1 1666 16669 25114 XOR";
"2 1 1665 16669 25115 XOR";
"2 1 1664 16669 25116 XOR";
"2 1 1663 16669 25117 XOR";
"2 1 1662 16669 25118 XOR";
"2 1 1661 16669 25119 XOR";
"2 1 1660 16669 25120 XOR";
"2 1 1659 16669 25121 XOR";
"2 1 1658 16669 25122 XOR";
"2 1 1657 16669 25123 XOR";
"2 1 1656 16669 25124 XOR";
"2 1 1655 16669 25125 XOR";
"2 1 1654 16669 25126 XOR";
"2 1 1653 16669 25127 XOR";
"2 1 1652 16669 25128 XOR";
"2 1 1651 16669 25129 XOR";
"2 1 1650 16669 25130 XOR";
"2 1 1649 16669 25131 XOR";
"2 1 1648 16669 25132 XOR";
"2 1 1647 16669 25133 XOR";
"2 1 1646 16669 25134 XOR";
"2 1 1645 16669 25135 XOR";
"2 1 1644 16669 25136 XOR";
"2 1 1643 16669 25137 XOR";
"2 1 25075 16946 24949 AND";
"2 1 25012 24949 1766 XOR";
"2 1 1766 16948 24824 XOR";
"2 1 25076 24949 11976 XOR";
"2 1 16947 24949 11975 XOR";
"2 1 11976 11975 11974 AND";
"2 1 11974 24949 24950 XOR";
"2 1 25013 24950 1765 XOR";
"2 1 1765 16949 24825 XOR";
"2 1 25077 24950 11973 XOR";
"2 1 16948 24950 11972 XOR";
"2 1 11973 11972 11971 AND";
"2 1 11971 24950 24951 XOR";
"2 1 25014 24951 1764 XOR";
"2 1 1764 16950 24826 XOR";
"2 1 25078 24951 11970 XOR";
"2 1 16949 24951 11969 XOR";
"2 1 11970 11969 11968 AND";
"2 1 11968 24951 24952 XOR";
"2 1 25015 24952 1763 XOR";
"2 1 1763 16951 24827 XOR";
"2 1 25079 24952 11967 XOR";
"2 1 16950 24952 11966 XOR";
"2 1 11967 11966 11965 AND";
"2 1 11965 24952 24953 XOR";
"2 1 25016 24953 1762 XOR";
"2 1 1762 16952 24828 XOR";
"2 1 25080 24953 11964 XOR";
"2 1 16951 24953 11963 XOR";
"2 1 11964 11963 11962 AND";
"2 1 11962 24953 24954 XOR";
"2 1 25017 24954 1761 XOR";
"2 1 1761 16953 24829 XOR";
"2 1 25081 24954 11961 XOR";
"2 1 16952 24954 11960 XOR";
"2 1 11961 11960 11959 AND";
"2 1 11959 24954 24955 XOR";
"2 1 25018 24955 1760 XOR";
"2 1 1760 16954 24830 XOR";
"2 1 25082 24955 11958 XOR";
"2 1 16953 24955 11957 XOR";
"2 1 11958 11957 11956 AND";
"2 1 11956 24955 24956 XOR";
"2 1 25019 24956 1759 XOR";
"2 1 1759 16955 24831 XOR";
"2 1 25083 24956 11955 XOR";
"2 1 16954 24956 11954 XOR";
"2 1 11955 11954 11953 AND";
"2 1 11953 24956 24957 XOR";
"2 1 25020 24957 1758 XOR";
"2 1 1758 16956 24832 XOR";
"2 1 25084 24957 11952 XOR";
"2 1 16955 24957 11951 XOR";
"2 1 11952 11951 11950 AND";
"2 1 11950 24957 24958 XOR";
"2 1 25021 24958 1757 XOR";
"2 1 1757 16957 24833 XOR";
"2 1 25085 24958 11949 XOR";
"2 1 16956 24958 11948 XOR";
"2 1 11949 11948 11947 AND";
"2 1 11947 24958 24959 XOR";
"2 1 25022 24959 1756 XOR";
"2 1 1756 16958 24834 XOR";
"2 1 25086 24959 11946 XOR";
"2 1 16957 24959 11945 XOR";
"2 1 11946 11945 11944 AND";
"2 1 11944 24959 24960 XOR";
"2 1 25023 24960 1755 XOR";
"2 1 1755 16959 24835 XOR";
"2 1 25087 24960 11943 XOR";
"2 1 16958 24960 11942 XOR";
"2 1 11943 11942 11941 AND";
"2 1 11941 24960 24961 XOR";
"2 1 25024 24961 1754 XOR";
"2 1 1754 16960 24836 XOR";
"2 1 25088 24961 11940 XOR";
"2 1 16959 24961 11939 XOR";
"2 1 11940 11939 11938 AND";
"2 1 11938 24961 24962 XOR";
"2 1 25025 24962 1753 XOR";
"2 1 1753 16961 24837 XOR";
"2 1 25089 24962 11937 XOR";
"2 1 16960 24962 11936 XOR";
"2 1 11937 11936 11935 AND";
"2 1 11935 24962 24963 XOR";
"2 1 25026 24963 1752 XOR";
"2 1 1752 16962 24838 XOR";
"2 1 25090 24963 11934 XOR";
"2 1 16961 24963 11933 XOR";
"2 1 11934 11933 11932 AND";
"2 1 11932 24963 24964 XOR";
"2 1 25027 24964 1751 XOR";
"2 1 1751 16963 24839 XOR";
"2 1 25091 24964 11931 XOR";
"2 1 16962 24964 11930 XOR";
"2 1 11931 11930 11929 AND";
"2 1 11929 24964 24965 XOR";
"2 1 25028 24965 1750 XOR";
"2 1 1750 16964 24840 XOR";
"2 1 25092 24965 11928 XOR";
"2 1 16963 24965 11927 XOR";
"2 1 11928 11927 11926 AND";
"2 1 11926 24965 24966 XOR";
"2 1 25029 24966 1749 XOR";
"2 1 1749 16965 24841 XOR";
"2 1 25093 24966 11925 XOR";
"2 1 16964 24966 11924 XOR";
"2 1 11925 11924 11923 AND";
"2 1 11923 24966 24967 XOR";
"2 1 25030 24967 1748 XOR";
"2 1 1748 16966 24842 XOR";
"2 1 25094 24967 11922 XOR";
"2 1 16965 24967 11921 XOR";
"2 1 11922 11921 11920 AND";
"2 1 11920 24967 24968 XOR";
"2 1 25031 24968 1747 XOR";
"2 1 1747 16967 24843 XOR";
"2 1 25095 24968 11919 XOR";
"2 1 16966 24968 11918 XOR";
"2 1 11919 11918 11917 AND";
"2 1 11917 24968 24969 XOR";
"2 1 25032 24969 1746 XOR";
"2 1 1746 16968 24844 XOR";
"2 1 25096 24969 11916 XOR";
"2 1 16967 24969 11915 XOR";
"2 1 11916 11915 11914 AND";
"2 1 11914 24969 24970 XOR";
"2 1 25033 24970 1745 XOR";
"2 1 1745 16969 24845 XOR";
"2 1 25097 24970 11913 XOR";
"2 1 16968 24970 11912 XOR";
"2 1 11913 11912 11911 AND";
"2 1 11911 24970 24971 XOR";
"2 1 25034 24971 1744 XOR";
"2 1 1744 16970 24846 XOR";
"2 1 25098 24971 11910 XOR";
"2 1 16969 24971 11909 XOR";
"2 1 11910 11909 11908 AND";
"2 1 11908 24971 24972 XOR";
"2 1 25035 24972 1743 XOR";
"2 1 1743 16971 24847 XOR";
"2 1 25099 24972 11907 XOR";
"2 1 16970 24972 11906 XOR";
"2 1 11907 11906 11905 AND";
"2 1 11905 24972 24973 XOR";
"2 1 25036 24973 1742 XOR";
"2 1 1742 16972 24848 XOR";
"2 1 25100 24973 11904 XOR";
"2 1 16971 24973 11903 XOR";
"2 1 11904 11903 11902 AND";
"2 1 11902 24973 24974 XOR";
"2 1 25037 24974 1741 XOR";
"2 1 1741 16973 24849 XOR";
"2 1 25101 24974 11901 XOR";
"2 1 16972 24974 11900 XOR";
"2 1 11901 11900 11899 AND";
"2 1 11899 24974 24975 XOR";
"2 1 25038 24975 1740 XOR";
"2 1 1740 16974 24850 XOR";
"2 1 25102 24975 11898 XOR";
"2 1 16973 24975 11897 XOR";
"2 1 11898 11897 11896 AND";
"2 1 11896 24975 24976 XOR";
"2 1 25039 24976 1739 XOR";
"2 1 1739 16975 24851 XOR";
"2 1 25103 24976 11895 XOR";
"2 1 16974 24976 11894 XOR";
"2 1 11895 11894 11893 AND";
"2 1 11893 24976 24977 XOR";
"2 1 25040 24977 1738 XOR";
"2 1 1738 16976 24852 XOR";
"2 1 25104 24977 11892 XOR";
"2 1 16975 24977 11891 XOR";
"2 1 11892 11891 11890 AND";
"2 1 11890 24977 24978 XOR";
"2 1 25041 24978 1737 XOR";
"2 1 1737 16977 24853 XOR";
"2 1 25105 24978 11889 XOR";
"2 1 16976 24978 11888 XOR";
"2 1 11889 11888 11887 AND";
"2 1 11887 24978 24979 XOR";
"2 1 25042 24979 1736 XOR";
"2 1 1736 16978 24854 XOR";
"2 1 25106 24979 11886 XOR";
"2 1 16977 24979 11885 XOR";
"2 1 11886 11885 11884 AND";
"2 1 11884 24979 24980 XOR";
"2 1 25043 24980 1735 XOR";
"2 1 1735 16979 24855 XOR";
"2 1 25107 24980 11883 XOR";
"2 1 16978 24980 11882 XOR";
"2 1 11883 11882 11881 AND";
"2 1 11881 24980 24981 XOR";
"2 1 25044 24981 1734 XOR";
"2 1 1734 16980 24856 XOR";
"2 1 25108 24981 11880 XOR";
"2 1 16979 24981 11879 XOR";
"2 1 11880 11879 11878 AND";
"2 1 11878 24981 24982 XOR";
"2 1 25045 24982 1733 XOR";
"2 1 1733 16981 24857 XOR";
"2 1 25109 24982 11877 XOR";
"2 1 16980 24982 11876 XOR";
"2 1 11877 11876 11875 AND";
"2 1 11875 24982 24983 XOR";
"2 1 25046 24983 1732 XOR";
"2 1 1732 16982 24858 XOR";
"2 1 25110 24983 11874 XOR";
"2 1 16981 24983 11873 XOR";
"2 1 11874 11873 11872 AND";
"2 1 11872 24983 24984 XOR";
"2 1 25047 24984 1731 XOR";
"2 1 1731 16983 24859 XOR";
"2 1 25111 24984 11871 XOR";
"2 1 16982 24984 11870 XOR";
"2 1 11871 11870 11869 AND";
"2 1 11869 24984 24985 XOR";
"2 1 25048 24985 1730 XOR";
"2 1 1730 16984 24860 XOR";
"2 1 25112 24985 11868 XOR";
"2 1 16983 24985 11867 XOR";
"2 1 11868 11867 11866 AND";
"2 1 11866 24985 24986 XOR";
"2 1 25049 24986 1729 XOR";
"2 1 1729 16985 24861 XOR";
"2 1 25113 24986 11865 XOR";
"2 1 16984 24986 11864 XOR";
"2 1 11865 11864 11863 AND";
"2 1 11863 24986 24987 XOR";
"2 1 25050 24987 1728 XOR";
"2 1 1728 16986 24862 XOR";
"2 1 25114 24987 11862 XOR";
"2 1 16985 24987 11861 XOR";
"2 1 11862 11861 11860 AND";
"2 1 11860 24987 24988 XOR";
"2 1 25051 24988 1727 XOR";
"2 1 1727 16987 24863 XOR";
"2 1 25115 24988 11859 XOR";
"2 1 16986 24988 11858 XOR";
"2 1 11859 11858 11857 AND";
"2 1 11857 24988 24989 XOR";
"2 1 25052 24989 1726 XOR";
"2 1 1726 16988 24864 XOR";
"2 1 25116 24989 11856 XOR";
"2 1 16987 24989 11855 XOR";
"2 1 11856 11855 11854 AND";
"2 1 11854 24989 24990 XOR";
"2 1 25053 24990 1725 XOR";
"2 1 1725 16989 24865 XOR";
"2 1 25117 24990 11853 XOR";
"2 1 16988 24990 11852 XOR";
"2 1 11853 11852 11851 AND";
"2 1 11851 24990 24991 XOR";
"2 1 25054 24991 1724 XOR";
"2 1 1724 16990 24866 XOR";
"2 1 25118 24991 11850 XOR";
"2 1 16989 24991 11849 XOR";
"2 1 11850 11849 11848 AND";
"2 1 11848 24991 24992 XOR";
"2 1 25055 24992 1723 XOR";
"2 1 1723 16991 24867 XOR";
"2 1 25119 24992 11847 XOR";
"2 1 16990 24992 11846 XOR";
"2 1 11847 11846 11845 AND";
"2 1 11845 24992 24993 XOR";
"2 1 25056 24993 1722 XOR";
"2 1 1722 16992 24868 XOR";
"2 1 25120 24993 11844 XOR";
"2 1 16991 24993 11843 XOR";
"2 1 11844 11843 11842 AND";
"2 1 11842 24993 24994 XOR";
"2 1 25057 24994 1721 XOR";
"2 1 1721 16993 24869 XOR";
"2 1 25121 24994 11841 XOR";
"2 1 16992 24994 11840 XOR";
"2 1 11841 11840 11839 AND";
"2 1 11839 24994 24995 XOR";
"2 1 25058 24995 1720 XOR";
"2 1 1720 16994 24870 XOR";
"2 1 25122 24995 11838 XOR";
"2 1 16993 24995 11837 XOR";
"2 1 11838 11837 11836 AND";
"2 1 11836 24995 24996 XOR";
"2 1 25059 24996 1719 XOR";
"2 1 1719 16995 24871 XOR";
"2 1 25123 24996 11835 XOR";
"2 1 16994 24996 11834 XOR";
"2 1 11835 11834 11833 AND";
"2 1 11833 24996 24997 XOR";
"2 1 25060 24997 1718 XOR";
"2 1 1718 16996 24872 XOR";
"2 1 25124 24997 11832 XOR";
"2 1 16995 24997 11831 XOR";
"2 1 11832 11831 11830 AND";
"2 1 11830 24997 24998 XOR";
"2 1 25061 24998 1717 XOR";
"2 1 1717 16997 24873 XOR";
"2 1 25125 24998 11829 XOR";
"2 1 16996 24998 11828 XOR";
"2 1 11829 11828 11827 AND";
"2 1 11827 24998 24999 XOR";
"2 1 25062 24999 1716 XOR";
"2 1 1716 16998 24874 XOR";
"2 1 25126 24999 11826 XOR";
"2 1 16997 24999 11825 XOR";
"2 1 11826 11825 11824 AND";
"2 1 11824 24999 25000 XOR";
"2 1 25063 25000 1715 XOR";
"2 1 1715 16999 24875 XOR";
"2 1 25127 25000 11823 XOR";
"2 1 16998 25000 11822 XOR";
"2 1 11823 11822 11821 AND";
"2 1 11821 25000 25001 XOR";
"2 1 25064 25001 1714 XOR";
"2 1 1714 17000 24876 XOR";
"2 1 25128 25001 11820 XOR";
"2 1 16999 25001 11819 XOR";
"2 1 11820 11819 11818 AND";
"2 1 11818 25001 25002 XOR";
"2 1 25065 25002 1713 XOR";
"2 1 1713 17001 24877 XOR";
"2 1 25129 25002 11817 XOR";
"2 1 17000 25002 11816 XOR";
"2 1 11817 11816 11815 AND";
"2 1 11815 25002 25003 XOR";
"2 1 25066 25003 1712 XOR";
"2 1 1712 17002 24878 XOR";
"2 1 25130 25003 11814 XOR";
"2 1 17001 25003 11813 XOR";
"2 1 11814 11813 11812 AND";
"2 1 11812 25003 25004 XOR";
"2 1 25067 25004 1711 XOR";
"2 1 1711 17003 24879 XOR";
"2 1 25131 25004 11811 XOR";
"2 1 17002 25004 11810 XOR";
"2 1 11811 11810 11809 AND";
"2 1 11809 25004 25005 XOR";
"2 1 25068 25005 1710 XOR";
"2 1 1710 17004 24880 XOR";
"2 1 25132 25005 11808 XOR";
"2 1 17003 25005 11807 XOR";
"2 1 11808 11807 11806 AND";
"2 1 11806 25005 25006 XOR";
"2 1 25069 25006 1709 XOR";
"2 1 1709 17005 24881 XOR";
"2 1 25133 25006 11805 XOR";
"2 1 17004 25006 11804 XOR";
"2 1 11805 11804 11803 AND";
"2 1 11803 25006 25007 XOR";
"2 1 25070 25007 1708 XOR";
"2 1 1708 17006 24882 XOR";
"2 1 25134 25007 11802 XOR";
"2 1 17005 25007 11801 XOR";
"2 1 11802 11801 11800 AND";
"2 1 11800 25007 25008 XOR";
"2 1 25071 25008 1707 XOR";
"2 1 1707 17007 24883 XOR";
"2 1 25135 25008 11799 XOR";
"2 1 17006 25008 11798 XOR";
"2 1 11799 11798 11797 AND";
"2 1 11797 25008 25009 XOR";
"2 1 25072 25009 1706 XOR";
"2 1 1706 17008 24884 XOR";
"2 1 25136 25009 11796 XOR";
"2 1 17007 25009 11795 XOR";
"2 1 11796 11795 11794 AND";
"2 1 11794 25009 25010 XOR";
"2 1 25073 25010 1705 XOR";
"2 1 1705 17009 24885 XOR";
"2 1 25137 25010 11793 XOR";
"2 1 17008 25010 11792 XOR";
"2 1 11793 11792 11791 AND";
"2 1 11791 25010 25011 XOR";
"2 1 25074 25011 154 XOR";
"1 1 154 16668 INV";
"2 1 16857 16668 24886 XOR";
"2 1 1767 16668 24887 XOR";
"2 1 1766 16668 24888 XOR";
"2 1 1765 16668 24889 XOR";
"2 1 1764 16668 24890 XOR";
"2 1 1763 16668 24891 XOR";
"2 1 1762 16668 24892 XOR";
"2 1 1761 16668 24893 XOR";
"2 1 1760 16668 24894 XOR";
"2 1 1759 16668 24895 XOR";
"2 1 1758 16668 24896 XOR";
"2 1 1757 16668 24897 XOR";
"2 1 1756 16668 24898 XOR";
"2 1 1755 16668 24899 XOR";
"2 1 1754 16668 24900 XOR";
"2 1 1753 16668 24901 XOR";
"2 1 1752 16668 24902 XOR";
"2 1 1751 16668 24903 XOR";
"2 1 1750 16668 24904 XOR";
"2 1 1749 16668 24905 XOR";
"2 1 1748 16668 24906 XOR";
"2 1 1747 16668 24907 XOR";
"2 1 1746 16668 24908 XOR";
"2 1 1745 16668 24909 XOR";
"2 1 1744 16668 24910 XOR";
"2 1 1743 16668 24911 XOR";
"2 1 1742 16668 24912 XOR";
"2 1 1741 16668 24913 XOR";
"2 1 1740 16668 24914 XOR";
"2 1 1739 16668 24915 XOR";
"2 1 1738 16668 24916 XOR";
"2 1 1737 16668 24917 XOR";
"2 1 1736 16668 24918 XOR";
"2 1 1735 16668 24919 XOR";
"2 1 1734 16668 24920 XOR";
"2 1 1733 16668 24921 XOR";
"2 1 1732 16668 24922 XOR";
"2 1 1731 16668 24923 XOR";
"2 1 1730 16668 24924 XOR";
"2 1 1729 16668 24925 XOR";
"2 1 1728 16668 24926 XOR";
"2 1 1727 16668 24927 XOR";
"2 1 1726 16668 24928 XOR";
"2 1 1725 16668 24929 XOR";
"2 1 1724 16668 24930 XOR";
"2 1 1723 16668 24931 XOR";
"2 1 1722 16668 24932 XOR";
"2 1 1721 16668 24933 XOR";
"2 1 1720 16668 24934 XOR";
"2 1 1719 16668 24935 XOR";
"2 1 1718 16668 24936 XOR";
"2 1 1717 16668 24937 XOR";
"2 1 1716 16668 24938 XOR";
"2 1 1715 16668 24939 XOR";
"2 1 1714 16668 24940 XOR";
"2 1 1713 16668 24941 XOR";
"2 1 1712 16668 24942 XOR";
"2 1 1711 16668 24943 XOR";
"2 1 1710 16668 24944 XOR";
"2 1 1709 16668 24945 XOR";
"2 1 1708 16668 24946 XOR";
"2 1 1707 16668 24947 XOR";
"2 1 1706 16668 24948 XOR";
"2 1 24886 16946 24760 AND";
"2 1 24823 24760 1829 XOR";
"2 1 1829 16948 24635 XOR";
"2 1 24887 24760 11790 XOR";
"2 1 16947 24760 11789 XOR";
"2 1 11790 11789 11788 AND";
"2 1 11788 24760 24761 XOR";
"2 1 24824 24761 1828 XOR";
"2 1 1828 16949 24636 XOR";
"2 1 24888 24761 11787 XOR";
"2 1 16948 24761 11786 XOR";
"2 1 11787 11786 11785 AND";
"2 1 11785 24761 24762 XOR";
"2 1 24825 24762 1827 XOR";
"2 1 1827 16950 24637 XOR";
"2 1 24889 24762 11784 XOR";
"2 1 16949 24762 11783 XOR";
"2 1 11784 11783 11782 AND";
"2 1 11782 24762 24763 XOR";
"2 1 24826 24763 1826 XOR";
"2 1 1826 16951 24638 XOR";
"2 1 24890 24763 11781 XOR";
"2 1 16950 24763 11780 XOR";
"2 1 11781 11780 11779 AND";
"2 1 11779 24763 24764 XOR";
"2 1 24827 24764 1825 XOR";
"2 1 1825 16952 24639 XOR";
"2 1 24891 24764 11778 XOR";
"2 1 16951 24764 11777 XOR";
"2 1 11778 11777 11776 AND";
"2 1 11776 24764 24765 XOR";
"2 1 24828 24765 1824 XOR";
"2 1 1824 16953 24640 XOR";
"2 1 24892 24765 11775 XOR";
"2 1 16952 24765 11774 XOR";
"2 1 11775 11774 11773 AND";
"2 1 11773 24765 24766 XOR";
"2 1 24829 24766 1823 XOR";
"2 1 1823 16954 24641 XOR";
"2 1 24893 24766 11772 XOR";
"2 1 16953 24766 11771 XOR";
"2 1 11772 11771 11770 AND";
"2 1 11770 24766 24767 XOR";
"2 1 24830 24767 1822 XOR";
"2 1 1822 16955 24642 XOR";
"2 1 24894 24767 11769 XOR";
"2 1 16954 24767 11768 XOR";
"2 1 11769 11768 11767 AND";
"2 1 11767 24767 24768 XOR";
"2 1 24831 24768 1821 XOR";
"2 1 1821 16956 24643 XOR";
"2 1 24895 24768 11766 XOR";
"2 1 16955 24768 11765 XOR";
"2 1 11766 11765 11764 AND";
"2 1 11764 24768 24769 XOR";
"2 1 24832 24769 1820 XOR";
"2 1 1820 16957 24644 XOR";
"2 1 24896 24769 11763 XOR";
"2 1 16956 24769 11762 XOR";
"2 1 11763 11762 11761 AND";
"2 1 11761 24769 24770 XOR";
"2 1 24833 24770 1819 XOR";
"2 1 1819 16958 24645 XOR";
"2 1 24897 24770 11760 XOR";
"2 1 16957 24770 11759 XOR";
"2 1 11760 11759 11758 AND";
"2 1 11758 24770 24771 XOR";
"2 1 24834 24771 1818 XOR";
"2 1 1818 16959 24646 XOR";
"2 1 24898 24771 11757 XOR";
"2 1 16958 24771 11756 XOR";
"2 1 11757 11756 11755 AND";
"2 1 11755 24771 24772 XOR";
"2 1 24835 24772 1817 XOR";
"2 1 1817 16960 24647 XOR";
"2 1 24899 24772 11754 XOR";
"2 1 16959 24772 11753 XOR";
"2 1 11754 11753 11752 AND";
"2 1 11752 24772 24773 XOR";
"2 1 24836 24773 1816 XOR";
"2 1 1816 16961 24648 XOR";
"2 1 24900 24773 11751 XOR";
"2 1 16960 24773 11750 XOR";
"2 1 11751 11750 11749 AND";
"2 1 11749 24773 24774 XOR";
"2 1 24837 24774 1815 XOR";
"2 1 1815 16962 24649 XOR";
"2 1 24901 24774 11748 XOR";
"2 1 16961 24774 11747 XOR";
"2 1 11748 11747 11746 AND";
"2 1 11746 24774 24775 XOR";
"2 1 24838 24775 1814 XOR";
"2 1 1814 16963 24650 XOR";
"2 1 24902 24775 11745 XOR";
"2 1 16962 24775 11744 XOR";
"2 1 11745 11744 11743 AND";
"2 1 11743 24775 24776 XOR";
"2 1 24839 24776 1813 XOR";
"2 1 1813 16964 24651 XOR";
"2 1 24903 24776 11742 XOR";
"2 1 16963 24776 11741 XOR";
"2 1 11742 11741 11740 AND";
"2 1 11740 24776 24777 XOR";
"2 1 24840 24777 1812 XOR";
"2 1 1812 16965 24652 XOR";
"2 1 24904 24777 11739 XOR";
"2 1 16964 24777 11738 XOR";
"2 1 11739 11738 11737 AND";
"2 1 11737 24777 24778 XOR";
"2 1 24841 24778 1811 XOR";
"2 1 1811 16966 24653 XOR";
"2 1 24905 24778 11736 XOR";
"2 1 16965 24778 11735 XOR";
"2 1 11736 11735 11734 AND";
"2 1 11734 24778 24779 XOR";
"2 1 24842 24779 1810 XOR";
"2 1 1810 16967 24654 XOR";
"2 1 24906 24779 11733 XOR";
"2 1 16966 24779 11732 XOR";
"2 1 11733 11732 11731 AND";
"2 1 11731 24779 24780 XOR";
"2 1 24843 24780 1809 XOR";
"2 1 1809 16968 24655 XOR";
"2 1 24907 24780 11730 XOR";
"2 1 16967 24780 11729 XOR";
"2 1 11730 11729 11728 AND";
"2 1 11728 24780 24781 XOR";
"2 1 24844 24781 1808 XOR";
"2 1 1808 16969 24656 XOR";
"2 1 24908 24781 11727 XOR";
"2 1 16968 24781 11726 XOR";
"2 1 11727 11726 11725 AND";
"2 1 11725 24781 24782 XOR";
"2 1 24845 24782 1807 XOR";
"2 1 1807 16970 24657 XOR";
"2 1 24909 24782 11724 XOR";
"2 1 16969 24782 11723 XOR";
"2 1 11724 11723 11722 AND";
"2 1 11722 24782 24783 XOR";
"2 1 24846 24783 1806 XOR";
"2 1 1806 16971 24658 XOR";
"2 1 24910 24783 11721 XOR";
"2 1 16970 24783 11720 XOR";
"2 1 11721 11720 11719 AND";
"2 1 11719 24783 24784 XOR";
"2 1 24847 24784 1805 XOR";
"2 1 1805 16972 24659 XOR";
"2 1 24911 24784 11718 XOR";
"2 1 16971 24784 11717 XOR";
"2 1 11718 11717 11716 AND";
"2 1 11716 24784 24785 XOR";
"2 1 24848 24785 1804 XOR";
"2 1 1804 16973 24660 XOR";
"2 1 24912 24785 11715 XOR";
"2 1 16972 24785 11714 XOR";
"2 1 11715 11714 11713 AND";
"2 1 11713 24785 24786 XOR";
"2 1 24849 24786 1803 XOR";
"2 1 1803 16974 24661 XOR";
"2 1 24913 24786 11712 XOR";
"2 1 16973 24786 11711 XOR";
"2 1 11712 11711 11710 AND";
"2 1 11710 24786 24787 XOR";
"2 1 24850 24787 1802 XOR";
"2 1 1802 16975 24662 XOR";
"2 1 24914 24787 11709 XOR";
"2 1 16974 24787 11708 XOR";
"2 1 11709 11708 11707 AND";
"2 1 11707 24787 24788 XOR";
"2 1 24851 24788 1801 XOR";
"2 1 1801 16976 24663 XOR";
"2 1 24915 24788 11706 XOR";
"2 1 16975 24788 11705 XOR";
"2 1 11706 11705 11704 AND";
"2 1 11704 24788 24789 XOR";
"2 1 24852 24789 1800 XOR";
"2 1 1800 16977 24664 XOR";
"2 1 24916 24789 11703 XOR";
"2 1 16976 24789 11702 XOR";
"2 1 11703 11702 11701 AND";
"2 1 11701 24789 24790 XOR";
"2 1 24853 24790 1799 XOR";
"2 1 1799 16978 24665 XOR";
"2 1 24917 24790 11700 XOR";
"2 1 16977 24790 11699 XOR";
"2 1 11700 11699 11698 AND";
"2 1 11698 24790 24791 XOR";
"2 1 24854 24791 1798 XOR";
"2 1 1798 16979 24666 XOR";
"2 1 24918 24791 11697 XOR";
"2 1 16978 24791 11696 XOR";
"2 1 11697 11696 11695 AND";
"2 1 11695 24791 24792 XOR";
"2 1 24855 24792 1797 XOR";
"2 1 1797 16980 24667 XOR";
"2 1 24919 24792 11694 XOR";
"2 1 16979 24792 11693 XOR";
"2 1 11694 11693 11692 AND";
"2 1 11692 24792 24793 XOR";
"2 1 24856 24793 1796 XOR";
"2 1 1796 16981 24668 XOR";
"2 1 24920 24793 11691 XOR";
"2 1 16980 24793 11690 XOR";
"2 1 11691 11690 11689 AND";
"2 1 11689 24793 24794 XOR";
"2 1 24857 24794 1795 XOR";
"2 1 1795 16982 24669 XOR";
"2 1 24921 24794 11688 XOR";
"2 1 16981 24794 11687 XOR";
"2 1 11688 11687 11686 AND";
"2 1 11686 24794 24795 XOR";
"2 1 24858 24795 1794 XOR";
"2 1 1794 16983 24670 XOR";
"2 1 24922 24795 11685 XOR";
"2 1 16982 24795 11684 XOR";
"2 1 11685 11684 11683 AND";
"2 1 11683 24795 24796 XOR";
"2 1 24859 24796 1793 XOR";
"2 1 1793 16984 24671 XOR";
"2 1 24923 24796 11682 XOR";
"2 1 16983 24796 11681 XOR";
"2 1 11682 11681 11680 AND";
"2 1 11680 24796 24797 XOR";
"2 1 24860 24797 1792 XOR";
"2 1 1792 16985 24672 XOR";
"2 1 24924 24797 11679 XOR";
"2 1 16984 24797 11678 XOR";
"2 1 11679 11678 11677 AND";
"2 1 11677 24797 24798 XOR";
"2 1 24861 24798 1791 XOR";
"2 1 1791 16986 24673 XOR";
"2 1 24925 24798 11676 XOR";
"2 1 16985 24798 11675 XOR";
"2 1 11676 11675 11674 AND";
"2 1 11674 24798 24799 XOR";
"2 1 24862 24799 1790 XOR";
"2 1 1790 16987 24674 XOR";
"2 1 24926 24799 11673 XOR";
"2 1 16986 24799 11672 XOR";
"2 1 11673 11672 11671 AND";
"2 1 11671 24799 24800 XOR";
"2 1 24863 24800 1789 XOR";
"2 1 1789 16988 24675 XOR";
"2 1 24927 24800 11670 XOR";
"2 1 16987 24800 11669 XOR";
"2 1 11670 11669 11668 AND";
"2 1 11668 24800 24801 XOR";
"2 1 24864 24801 1788 XOR";
"2 1 1788 16989 24676 XOR";
"2 1 24928 24801 11667 XOR";
"2 1 16988 24801 11666 XOR";
"2 1 11667 11666 11665 AND";
"2 1 11665 24801 24802 XOR";
"2 1 24865 24802 1787 XOR";
"2 1 1787 16990 24677 XOR";
"2 1 24929 24802 11664 XOR";
"2 1 16989 24802 11663 XOR";
"2 1 11664 11663 11662 AND";
"2 1 11662 24802 24803 XOR";
"2 1 24866 24803 1786 XOR";
"2 1 1786 16991 24678 XOR";
"2 1 24930 24803 11661 XOR";
"2 1 16990 24803 11660 XOR";
"2 1 11661 11660 11659 AND";
"2 1 11659 24803 24804 XOR";
"2 1 24867 24804 1785 XOR";
"2 1 1785 16992 24679 XOR";
"2 1 24931 24804 11658 XOR";
"2 1 16991 24804 11657 XOR";
"2 1 11658 11657 11656 AND";
"2 1 11656 24804 24805 XOR";
"2 1 24868 24805 1784 XOR";
"2 1 1784 16993 24680 XOR";
"2 1 24932 24805 11655 XOR";
"2 1 16992 24805 11654 XOR";
"2 1 11655 11654 11653 AND";
"2 1 11653 24805 24806 XOR";
"2 1 24869 24806 1783 XOR";
"2 1 1783 16994 24681 XOR";
"2 1 24933 24806 11652 XOR";
"2 1 16993 24806 11651 XOR";
"2 1 11652 11651 11650 AND";
"2 1 11650 24806 24807 XOR";
"2 1 24870 24807 1782 XOR";
"2 1 1782 16995 24682 XOR";
"2 1 24934 24807 11649 XOR";
"2 1 16994 24807 11648 XOR";
"2 1 11649 11648 11647 AND";
"2 1 11647 24807 24808 XOR";
"2 1 24871 24808 1781 XOR";
"2 1 1781 16996 24683 XOR";
"2 1 24935 24808 11646 XOR";
"2 1 16995 24808 11645 XOR";
"2 1 11646 11645 11644 AND";
"2 1 11644 24808 24809 XOR";
"2 1 24872 24809 1780 XOR";
"2 1 1780 16997 24684 XOR";
"2 1 24936 24809 11643 XOR";
"2 1 16996 24809 11642 XOR";
"2 1 11643 11642 11641 AND";
"2 1 11641 24809 24810 XOR";
"2 1 24873 24810 1779 XOR";
"2 1 1779 16998 24685 XOR";
"2 1 24937 24810 11640 XOR";
"2 1 16997 24810 11639 XOR";
"2 1 11640 11639 11638 AND";
"2 1 11638 24810 24811 XOR";
"2 1 24874 24811 1778 XOR";
"2 1 1778 16999 24686 XOR";
"2 1 24938 24811 11637 XOR";
"2 1 16998 24811 11636 XOR";
"2 1 11637 11636 11635 AND";
"2 1 11635 24811 24812 XOR";
"2 1 24875 24812 1777 XOR";
"2 1 1777 17000 24687 XOR";
"2 1 24939 24812 11634 XOR";
"2 1 16999 24812 11633 XOR";
"2 1 11634 11633 11632 AND";
"2 1 11632 24812 24813 XOR";
"2 1 24876 24813 1776 XOR";
"2 1 1776 17001 24688 XOR";
"2 1 24940 24813 11631 XOR";
"2 1 17000 24813 11630 XOR";
"2 1 11631 11630 11629 AND";
"2 1 11629 24813 24814 XOR";
"2 1 24877 24814 1775 XOR";
"2 1 1775 17002 24689 XOR";
"2 1 24941 24814 11628 XOR";
"2 1 17001 24814 11627 XOR";
"2 1 11628 11627 11626 AND";
"2 1 11626 24814 24815 XOR";
"2 1 24878 24815 1774 XOR";
"2 1 1774 17003 24690 XOR";
"2 1 24942 24815 11625 XOR";
"2 1 17002 24815 11624 XOR";
"2 1 11625 11624 11623 AND";
"2 1 11623 24815 24816 XOR";
"2 1 24879 24816 1773 XOR";
"2 1 1773 17004 24691 XOR";
"2 1 24943 24816 11622 XOR";
"2 1 17003 24816 11621 XOR";
"2 1 11622 11621 11620 AND";
"2 1 11620 24816 24817 XOR";
"2 1 24880 24817 1772 XOR";
"2 1 1772 17005 24692 XOR";
"2 1 24944 24817 11619 XOR";
"2 1 17004 24817 11618 XOR";
"2 1 11619 11618 11617 AND";
"2 1 11617 24817 24818 XOR";
"2 1 24881 24818 1771 XOR";
"2 1 1771 17006 24693 XOR";
"2 1 24945 24818 11616 XOR";
"2 1 17005 24818 11615 XOR";
"2 1 11616 11615 11614 AND";
"2 1 11614 24818 24819 XOR";
"2 1 24882 24819 1770 XOR";
"2 1 1770 17007 24694 XOR";
"2 1 24946 24819 11613 XOR";
"2 1 17006 24819 11612 XOR";
"2 1 11613 11612 11611 AND";
"2 1 11611 24819 24820 XOR";
"2 1 24883 24820 1769 XOR";
"2 1 1769 17008 24695 XOR";
"2 1 24947 24820 11610 XOR";
"2 1 17007 24820 11609 XOR";
"2 1 11610 11609 11608 AND";
"2 1 11608 24820 24821 XOR";
"2 1 24884 24821 1768 XOR";
"2 1 1768 17009 24696 XOR";
"2 1 24948 24821 11607 XOR";
"2 1 17008 24821 11606 XOR";
"2 1 11607 11606 11605 AND";
"2 1 11605 24821 24822 XOR";
"2 1 24885 24822 155 XOR";
"2 1 16668 4535 17552 AND";
"1 1 155 16667 INV";
"2 1 16856 16667 24697 XOR";
"2 1 1830 16667 24698 XOR";
"2 1 1829 16667 24699 XOR";
"2 1 1828 16667 24700 XOR";
"2 1 1827 16667 24701 XOR";
"2 1 1826 16667 24702 XOR";
"2 1 1825 16667 24703 XOR";
"2 1 1824 16667 24704 XOR";
"2 1 1823 16667 24705 XOR";
"2 1 1822 16667 24706 XOR";
"2 1 1821 16667 24707 XOR";
"2 1 1820 16667 24708 XOR";
"2 1 1819 16667 24709 XOR";
"2 1 1818 16667 24710 XOR";
"2 1 1817 16667 24711 XOR";
"2 1 1816 16667 24712 XOR";
"2 1 1815 16667 24713 XOR";
"2 1 1814 16667 24714 XOR";
"2 1 1813 16667 24715 XOR";
"2 1 1812 16667 24716 XOR";
"2 1 1811 16667 24717 XOR";
"2 1 1810 16667 24718 XOR";
"2 1 1809 16667 24719 XOR";
"2 1 1808 16667 24720 XOR";
"2 1 1807 16667 24721 XOR";
"2 1 1806 16667 24722 XOR";
"2 1 1805 16667 24723 XOR";
"2 1 1804 16667 24724 XOR";
"2 1 1803 16667 24725 XOR";
"2 1 1802 16667 24726 XOR";
"2 1 1801 16667 24727 XOR";
"2 1 1800 16667 24728 XOR";
"2 1 1799 16667 24729 XOR";
"2 1 1798 16667 24730 XOR";
"2 1 1797 16667 24731 XOR";
"2 1 1796 16667 24732 XOR";
"2 1 1795 16667 24733 XOR";
"2 1 1794 16667 24734 XOR";
"2 1 1793 16667 24735 XOR";
"2 1 1792 16667 24736 XOR";
"2 1 1791 16667 24737 XOR";
"2 1 1790 16667 24738 XOR";
"2 1 1789 16667 24739 XOR";
"2 1 1788 16667 24740 XOR";
"2 1 1787 16667 24741 XOR";
"2 1 1786 16667 24742 XOR";
"2 1 1785 16667 24743 XOR";
"2 1 1784 16667 24744 XOR";
"2 1 1783 16667 24745 XOR";
"2 1 1782 16667 24746 XOR";
"2 1 1781 16667 24747 XOR";
"2 1 1780 16667 24748 XOR";
"2 1 1779 16667 24749 XOR";
"2 1 1778 16667 24750 XOR";
"2 1 1777 16667 24751 XOR";
"2 1 1776 16667 24752 XOR";
"2 1 1775 16667 24753 XOR";
"2 1 1774 16667 24754 XOR";
"2 1 1773 16667 24755 XOR";
"2 1 1772 16667 24756 XOR";
"2 1 1771 16667 24757 XOR";
"2 1 1770 16667 24758 XOR";
"2 1 1769 16667 24759 XOR";
"2 1 24697 16946 24571 AND";
"2 1 24634 24571 1892 XOR";
"2 1 1892 16948 24446 XOR";
"2 1 24698 24571 11604 XOR";
"2 1 16947 24571 11603 XOR";
"2 1 11604 11603 11602 AND";
"2 1 11602 24571 24572 XOR";
"2 1 24635 24572 1891 XOR";
"2 1 1891 16949 24447 XOR";
"2 1 24699 24572 11601 XOR";
"2 1 16948 24572 11600 XOR";
"2 1 11601 11600 11599 AND";
"2 1 11599 24572 24573 XOR";
"2 1 24636 24573 1890 XOR";
"2 1 1890 16950 24448 XOR";
"2 1 24700 24573 11598 XOR";
"2 1 16949 24573 11597 XOR";
"2 1 11598 11597 11596 AND";
"2 1 11596 24573 24574 XOR";
"2 1 24637 24574 1889 XOR";
"2 1 1889 16951 24449 XOR";
"2 1 24701 24574 11595 XOR";
"2 1 16950 24574 11594 XOR";
"2 1 11595 11594 11593 AND";
"2 1 11593 24574 24575 XOR";
"2 1 24638 24575 1888 XOR";
"2 1 1888 16952 24450 XOR";
"2 1 24702 24575 11592 XOR";
"2 1 16951 24575 11591 XOR";
"2 1 11592 11591 11590 AND";
"2 1 11590 24575 24576 XOR";
"2 1 24639 24576 1887 XOR";
"2 1 1887 16953 24451 XOR";
"2 1 24703 24576 11589 XOR";
"2 1 16952 24576 11588 XOR";
"2 1 11589 11588 11587 AND";
"2 1 11587 24576 24577 XOR";
"2 1 24640 24577 1886 XOR";
"2 1 1886 16954 24452 XOR";
"2 1 24704 24577 11586 XOR";
"2 1 16953 24577 11585 XOR";
"2 1 11586 11585 11584 AND";
"2 1 11584 24577 24578 XOR";
"2 1 24641 24578 1885 XOR";
"2 1 1885 16955 24453 XOR";
"2 1 24705 24578 11583 XOR";
"2 1 16954 24578 11582 XOR";
"2 1 11583 11582 11581 AND";
"2 1 11581 24578 24579 XOR";
"2 1 24642 24579 1884 XOR";
"2 1 1884 16956 24454 XOR";
"2 1 24706 24579 11580 XOR";
"2 1 16955 24579 11579 XOR";
"2 1 11580 11579 11578 AND";
"2 1 11578 24579 24580 XOR";
"2 1 24643 24580 1883 XOR";
"2 1 1883 16957 24455 XOR";
"2 1 24707 24580 11577 XOR";
"2 1 16956 24580 11576 XOR";
"2 1 11577 11576 11575 AND";
"2 1 11575 24580 24581 XOR";
"2 1 24644 24581 1882 XOR";
"2 1 1882 16958 24456 XOR";
"2 1 24708 24581 11574 XOR";
"2 1 16957 24581 11573 XOR";
"2 1 11574 11573 11572 AND";
"2 1 11572 24581 24582 XOR";
"2 1 24645 24582 1881 XOR";
"2 1 1881 16959 24457 XOR";
"2 1 24709 24582 11571 XOR";
"2 1 16958 24582 11570 XOR";
"2 1 11571 11570 11569 AND";
"2 1 11569 24582 24583 XOR";
"2 1 24646 24583 1880 XOR";
"2 1 1880 16960 24458 XOR";
"2 1 24710 24583 11568 XOR";
"2 1 16959 24583 11567 XOR";
"2 1 11568 11567 11566 AND";
"2 1 11566 24583 24584 XOR";
"2 1 24647 24584 1879 XOR";
"2 1 1879 16961 24459 XOR";
"2 1 24711 24584 11565 XOR";
"2 1 16960 24584 11564 XOR";
"2 1 11565 11564 11563 AND";
"2 1 11563 24584 24585 XOR";
"2 1 24648 24585 1878 XOR";
"2 1 1878 16962 24460 XOR";
"2 1 24712 24585 11562 XOR";
"2 1 16961 24585 11561 XOR";
"2 1 11562 11561 11560 AND";
"2 1 11560 24585 24586 XOR";
"2 1 24649 24586 1877 XOR";
"2 1 1877 16963 24461 XOR";
"2 1 24713 24586 11559 XOR";
"2 1 16962 24586 11558 XOR";
"2 1 11559 11558 11557 AND";
"2 1 11557 24586 24587 XOR";
"2 1 24650 24587 1876 XOR";
"2 1 1876 16964 24462 XOR";
"2 1 24714 24587 11556 XOR";
"2 1 16963 24587 11555 XOR";
"2 1 11556 11555 11554 AND";
"2 1 11554 24587 24588 XOR";
"2 1 24651 24588 1875 XOR";
"2 1 1875 16965 24463 XOR";
"2 1 24715 24588 11553 XOR";
"2 1 16964 24588 11552 XOR";
"2 1 11553 11552 11551 AND";
"2 1 11551 24588 24589 XOR";
"2 1 24652 24589 1874 XOR";
"2 1 1874 16966 24464 XOR";
"2 1 24716 24589 11550 XOR";
"2 1 16965 24589 11549 XOR";
"2 1 11550 11549 11548 AND";
"2 1 11548 24589 24590 XOR";
"2 1 24653 24590 1873 XOR";
"2 1 1873 16967 24465 XOR";
"2 1 24717 24590 11547 XOR";
"2 1 16966 24590 11546 XOR";
"2 1 11547 11546 11545 AND";
"2 1 11545 24590 24591 XOR";
"2 1 24654 24591 1872 XOR";
"2 1 1872 16968 24466 XOR";
"2 1 24718 24591 11544 XOR";
"2 1 16967 24591 11543 XOR";
"2 1 11544 11543 11542 AND";
"2 1 11542 24591 24592 XOR";
"2 1 24655 24592 1871 XOR";
"2 1 1871 16969 24467 XOR";
"2 1 24719 24592 11541 XOR";
"2 1 16968 24592 11540 XOR";
"2 1 11541 11540 11539 AND";
"2 1 11539 24592 24593 XOR";
"2 1 24656 24593 1870 XOR";
"2 1 1870 16970 24468 XOR";
"2 1 24720 24593 11538 XOR";
"2 1 16969 24593 11537 XOR";
"2 1 11538 11537 11536 AND";
"2 1 11536 24593 24594 XOR";
"2 1 24657 24594 1869 XOR";
"2 1 1869 16971 24469 XOR";
"2 1 24721 24594 11535 XOR";
"2 1 16970 24594 11534 XOR";
"2 1 11535 11534 11533 AND";
"2 1 11533 24594 24595 XOR";
"2 1 24658 24595 1868 XOR";
"2 1 1868 16972 24470 XOR";
"2 1 24722 24595 11532 XOR";
"2 1 16971 24595 11531 XOR";
"2 1 11532 11531 11530 AND";
"2 1 11530 24595 24596 XOR";
"2 1 24659 24596 1867 XOR";
"2 1 1867 16973 24471 XOR";
"2 1 24723 24596 11529 XOR";
"2 1 16972 24596 11528 XOR";
"2 1 11529 11528 11527 AND";
"2 1 11527 24596 24597 XOR";
"2 1 24660 24597 1866 XOR";
"2 1 1866 16974 24472 XOR";
"2 1 24724 24597 11526 XOR";
"2 1 16973 24597 11525 XOR";
"2 1 11526 11525 11524 AND";
"2 1 11524 24597 24598 XOR";
"2 1 24661 24598 1865 XOR";
"2 1 1865 16975 24473 XOR";
"2 1 24725 24598 11523 XOR";
"2 1 16974 24598 11522 XOR";
"2 1 11523 11522 11521 AND";
"2 1 11521 24598 24599 XOR";
"2 1 24662 24599 1864 XOR";
"2 1 1864 16976 24474 XOR";
"2 1 24726 24599 11520 XOR";
"2 1 16975 24599 11519 XOR";
"2 1 11520 11519 11518 AND";
"2 1 11518 24599 24600 XOR";
"2 1 24663 24600 1863 XOR";
"2 1 1863 16977 24475 XOR";
"2 1 24727 24600 11517 XOR";
"2 1 16976 24600 11516 XOR";
"2 1 11517 11516 11515 AND";
"2 1 11515 24600 24601 XOR";
"2 1 24664 24601 1862 XOR";
"2 1 1862 16978 24476 XOR";
"2 1 24728 24601 11514 XOR";
"2 1 16977 24601 11513 XOR";
"2 1 11514 11513 11512 AND";
"2 1 11512 24601 24602 XOR";
"2 1 24665 24602 1861 XOR";
"2 1 1861 16979 24477 XOR";
"2 1 24729 24602 11511 XOR";
"2 1 16978 24602 11510 XOR";
"2 1 11511 11510 11509 AND";
"2 1 11509 24602 24603 XOR";
"2 1 24666 24603 1860 XOR";
"2 1 1860 16980 24478 XOR";
"2 1 24730 24603 11508 XOR";
"2 1 16979 24603 11507 XOR";
"2 1 11508 11507 11506 AND";
"2 1 11506 24603 24604 XOR";
"2 1 24667 24604 1859 XOR";
"2 1 1859 16981 24479 XOR";
"2 1 24731 24604 11505 XOR";
"2 1 16980 24604 11504 XOR";
"2 1 11505 11504 11503 AND";
"2 1 11503 24604 24605 XOR";
"2 1 24668 24605 1858 XOR";
"2 1 1858 16982 24480 XOR";
"2 1 24732 24605 11502 XOR";
"2 1 16981 24605 11501 XOR";
"2 1 11502 11501 11500 AND";
"2 1 11500 24605 24606 XOR";
"2 1 24669 24606 1857 XOR";
"2 1 1857 16983 24481 XOR";
"2 1 24733 24606 11499 XOR";
"2 1 16982 24606 11498 XOR";
"2 1 11499 11498 11497 AND";
"2 1 11497 24606 24607 XOR";
"2 1 24670 24607 1856 XOR";
"2 1 1856 16984 24482 XOR";
"2 1 24734 24607 11496 XOR";
"2 1 16983 24607 11495 XOR";
"2 1 11496 11495 11494 AND";
"2 1 11494 24607 24608 XOR";
"2 1 24671 24608 1855 XOR";
"2 1 1855 16985 24483 XOR";
"2 1 24735 24608 11493 XOR";
"2 1 16984 24608 11492 XOR";
"2 1 11493 11492 11491 AND";
"2 1 11491 24608 24609 XOR";
"2 1 24672 24609 1854 XOR";
"2 1 1854 16986 24484 XOR";
"2 1 24736 24609 11490 XOR";
"2 1 16985 24609 11489 XOR";
"2 1 11490 11489 11488 AND";
"2 1 11488 24609 24610 XOR";
"2 1 24673 24610 1853 XOR";
"2 1 1853 16987 24485 XOR";
"2 1 24737 24610 11487 XOR";
"2 1 16986 24610 11486 XOR";
"2 1 11487 11486 11485 AND";
"2 1 11485 24610 24611 XOR";
"2 1 24674 24611 1852 XOR";
"2 1 1852 16988 24486 XOR";
"2 1 24738 24611 11484 XOR";
"2 1 16987 24611 11483 XOR";
"2 1 11484 11483 11482 AND";
"2 1 11482 24611 24612 XOR";
"2 1 24675 24612 1851 XOR";
"2 1 1851 16989 24487 XOR";
"2 1 24739 24612 11481 XOR";
"2 1 16988 24612 11480 XOR";
"2 1 11481 11480 11479 AND";
"2 1 11479 24612 24613 XOR";
"2 1 24676 24613 1850 XOR";
"2 1 1850 16990 24488 XOR";
"2 1 24740 24613 11478 XOR";
"2 1 16989 24613 11477 XOR";
"2 1 11478 11477 11476 AND";
"2 1 11476 24613 24614 XOR";
"2 1 24677 24614 1849 XOR";
"2 1 1849 16991 24489 XOR";
"2 1 24741 24614 11475 XOR";
"2 1 16990 24614 11474 XOR";
"2 1 11475 11474 11473 AND";
"2 1 11473 24614 24615 XOR";
"2 1 24678 24615 1848 XOR";
"2 1 1848 16992 24490 XOR";
"2 1 24742 24615 11472 XOR";
"2 1 16991 24615 11471 XOR";
"2 1 11472 11471 11470 AND";
"2 1 11470 24615 24616 XOR";
"2 1 24679 24616 1847 XOR";
"2 1 1847 16993 24491 XOR";
"2 1 24743 24616 11469 XOR";
"2 1 16992 24616 11468 XOR";
"2 1 11469 11468 11467 AND";
"2 1 11467 24616 24617 XOR";
"2 1 24680 24617 1846 XOR";
"2 1 1846 16994 24492 XOR";
"2 1 24744 24617 11466 XOR";
"2 1 16993 24617 11465 XOR";
"2 1 11466 11465 11464 AND";
"2 1 11464 24617 24618 XOR";
"2 1 24681 24618 1845 XOR";
"2 1 1845 16995 24493 XOR";
"2 1 24745 24618 11463 XOR";
"2 1 16994 24618 11462 XOR";
"2 1 11463 11462 11461 AND";
"2 1 11461 24618 24619 XOR";
"2 1 24682 24619 1844 XOR";
"2 1 1844 16996 24494 XOR";
"2 1 24746 24619 11460 XOR";
"2 1 16995 24619 11459 XOR";
"2 1 11460 11459 11458 AND";
"2 1 11458 24619 24620 XOR";
"2 1 24683 24620 1843 XOR";
"2 1 1843 16997 24495 XOR";
"2 1 24747 24620 11457 XOR";
"2 1 16996 24620 11456 XOR";
"2 1 11457 11456 11455 AND";
"2 1 11455 24620 24621 XOR";
"2 1 24684 24621 1842 XOR";
"2 1 1842 16998 24496 XOR";
"2 1 24748 24621 11454 XOR";
"2 1 16997 24621 11453 XOR";
"2 1 11454 11453 11452 AND";
"2 1 11452 24621 24622 XOR";
"2 1 24685 24622 1841 XOR";
"2 1 1841 16999 24497 XOR";
"2 1 24749 24622 11451 XOR";
"2 1 16998 24622 11450 XOR";
"2 1 11451 11450 11449 AND";
"2 1 11449 24622 24623 XOR";
"2 1 24686 24623 1840 XOR";
"2 1 1840 17000 24498 XOR";
"2 1 24750 24623 11448 XOR";
"2 1 16999 24623 11447 XOR";
"2 1 11448 11447 11446 AND";
"2 1 11446 24623 24624 XOR";
"2 1 24687 24624 1839 XOR";
"2 1 1839 17001 24499 XOR";
"2 1 24751 24624 11445 XOR";
"2 1 17000 24624 11444 XOR";
"2 1 11445 11444 11443 AND";
"2 1 11443 24624 24625 XOR";
"2 1 24688 24625 1838 XOR";
"2 1 1838 17002 24500 XOR";
"2 1 24752 24625 11442 XOR";
"2 1 17001 24625 11441 XOR";
"2 1 11442 11441 11440 AND";
"2 1 11440 24625 24626 XOR";
"2 1 24689 24626 1837 XOR";
"2 1 1837 17003 24501 XOR";
"2 1 24753 24626 11439 XOR";
"2 1 17002 24626 11438 XOR";
"2 1 11439 11438 11437 AND";
"2 1 11437 24626 24627 XOR";
"2 1 24690 24627 1836 XOR";
"2 1 1836 17004 24502 XOR";
"2 1 24754 24627 11436 XOR";
"2 1 17003 24627 11435 XOR";
"2 1 11436 11435 11434 AND";
"2 1 11434 24627 24628 XOR";
"2 1 24691 24628 1835 XOR";
"2 1 1835 17005 24503 XOR";
"2 1 24755 24628 11433 XOR";
"2 1 17004 24628 11432 XOR";
"2 1 11433 11432 11431 AND";
"2 1 11431 24628 24629 XOR";
"2 1 24692 24629 1834 XOR";
"2 1 1834 17006 24504 XOR";
"2 1 24756 24629 11430 XOR";
"2 1 17005 24629 11429 XOR";
"2 1 11430 11429 11428 AND";
"2 1 11428 24629 24630 XOR";
"2 1 24693 24630 1833 XOR";
"2 1 1833 17007 24505 XOR";
"2 1 24757 24630 11427 XOR";
"2 1 17006 24630 11426 XOR";
"2 1 11427 11426 11425 AND";
"2 1 11425 24630 24631 XOR";
"2 1 24694 24631 1832 XOR";
"2 1 1832 17008 24506 XOR";
"2 1 24758 24631 11424 XOR";
"2 1 17007 24631 11423 XOR";
"2 1 11424 11423 11422 AND";
"2 1 11422 24631 24632 XOR";
"2 1 24695 24632 1831 XOR";
"2 1 1831 17009 24507 XOR";
"2 1 24759 24632 11421 XOR";
"2 1 17008 24632 11420 XOR";
"2 1 11421 11420 11419 AND";
"2 1 11419 24632 24633 XOR";
"2 1 24696 24633 156 XOR";
"1 1 156 16666 INV";
"2 1 16855 16666 24508 XOR";
"2 1 1893 16666 24509 XOR";
"2 1 1892 16666 24510 XOR";
"2 1 1891 16666 24511 XOR";
"2 1 1890 16666 24512 XOR";
"2 1 1889 16666 24513 XOR";
"2 1 1888 16666 24514 XOR";
"2 1 1887 16666 24515 XOR";
"2 1 1886 16666 24516 XOR";
"2 1 1885 16666 24517 XOR";
"2 1 1884 16666 24518 XOR";
"2 1 1883 16666 24519 XOR";
"2 1 1882 16666 24520 XOR";
"2 1 1881 16666 24521 XOR";
"2 1 1880 16666 24522 XOR";
"2 1 1879 16666 24523 XOR";
"2 1 1878 16666 24524 XOR";
"2 1 1877 16666 24525 XOR";
"2 1 1876 16666 24526 XOR";
"2 1 1875 16666 24527 XOR";
"2 1 1874 16666 24528 XOR";
"2 1 1873 16666 24529 XOR";
"2 1 1872 16666 24530 XOR";
"2 1 1871 16666 24531 XOR";
"2 1 1870 16666 24532 XOR";
"2 1 1869 16666 24533 XOR";
"2 1 1868 16666 24534 XOR";
"2 1 1867 16666 24535 XOR";
"2 1 1866 16666 24536 XOR";
"2 1 1865 16666 24537 XOR";
"2 1 1864 16666 24538 XOR";
"2 1 1863 16666 24539 XOR";
"2 1 1862 16666 24540 XOR";
"2 1 1861 16666 24541 XOR";
"2 1 1860 16666 24542 XOR";
"2 1 1859 16666 24543 XOR";
"2 1 1858 16666 24544 XOR";
"2 1 1857 16666 24545 XOR";
"2 1 1856 16666 24546 XOR";
"2 1 1855 16666 24547 XOR";
"2 1 1854 16666 24548 XOR";
"2 1 1853 16666 24549 XOR";
"2 1 1852 16666 24550 XOR";
"2 1 1851 16666 24551 XOR";
"2 1 1850 16666 24552 XOR";
"2 1 1849 16666 24553 XOR";
"2 1 1848 16666 24554 XOR";
"2 1 1847 16666 24555 XOR";
"2 1 1846 16666 24556 XOR";
"2 1 1845 16666 24557 XOR";
"2 1 1844 16666 24558 XOR";
"2 1 1843 16666 24559 XOR";
"2 1 1842 16666 24560 XOR";
"2 1 1841 16666 24561 XOR";
"2 1 1840 16666 24562 XOR";
"2 1 1839 16666 24563 XOR";
"2 1 1838 16666 24564 XOR";
"2 1 1837 16666 24565 XOR";
"2 1 1836 16666 24566 XOR";
"2 1 1835 16666 24567 XOR";
"2 1 1834 16666 24568 XOR";
"2 1 1833 16666 24569 XOR";
"2 1 1832 16666 24570 XOR";
"2 1 24508 16946 24382 AND";
"2 1 24445 24382 1955 XOR";
"2 1 1955 16948 24257 XOR";
"2 1 24509 24382 11418 XOR";
"2 1 16947 24382 11417 XOR";
"2 1 11418 11417 11416 AND";
"2 1 11416 24382 24383 XOR";
"2 1 24446 24383 1954 XOR";
"2 1 1954 16949 24258 XOR";
"2 1 24510 24383 11415 XOR";
"2 1 16948 24383 11414 XOR";
"2 1 11415 11414 11413 AND";
"2 1 11413 24383 24384 XOR";
"2 1 24447 24384 1953 XOR";
"2 1 1953 16950 24259 XOR";
"2 1 24511 24384 11412 XOR";
"2 1 16949 24384 11411 XOR";
"2 1 11412 11411 11410 AND";
"2 1 11410 24384 24385 XOR";
"2 1 24448 24385 1952 XOR";
"2 1 1952 16951 24260 XOR";
"2 1 24512 24385 11409 XOR";
"2 1 16950 24385 11408 XOR";
"2 1 11409 11408 11407 AND";
"2 1 11407 24385 24386 XOR";
"2 1 24449 24386 1951 XOR";
"2 1 1951 16952 24261 XOR";
"2 1 24513 24386 11406 XOR";
"2 1 16951 24386 11405 XOR";
"2 1 11406 11405 11404 AND";
"2 1 11404 24386 24387 XOR";
"2 1 24450 24387 1950 XOR";
"2 1 1950 16953 24262 XOR";
"2 1 24514 24387 11403 XOR";
"2 1 16952 24387 11402 XOR";
"2 1 11403 11402 11401 AND";
"2 1 11401 24387 24388 XOR";
"2 1 24451 24388 1949 XOR";
"2 1 1949 16954 24263 XOR";
"2 1 24515 24388 11400 XOR";
"2 1 16953 24388 11399 XOR";
"2 1 11400 11399 11398 AND";
"2 1 11398 24388 24389 XOR";
"2 1 24452 24389 1948 XOR";
"2 1 1948 16955 24264 XOR";
"2 1 24516 24389 11397 XOR";
"2 1 16954 24389 11396 XOR";
"2 1 11397 11396 11395 AND";
"2 1 11395 24389 24390 XOR";
"2 1 24453 24390 1947 XOR";
"2 1 1947 16956 24265 XOR";
"2 1 24517 24390 11394 XOR";
"2 1 16955 24390 11393 XOR";
"2 1 11394 11393 11392 AND";
"2 1 11392 24390 24391 XOR";
"2 1 24454 24391 1946 XOR";
"2 1 1946 16957 24266 XOR";
"2 1 24518 24391 11391 XOR";
"2 1 16956 24391 11390 XOR";
"2 1 11391 11390 11389 AND";
"2 1 11389 24391 24392 XOR";
"2 1 24455 24392 1945 XOR";
"2 1 1945 16958 24267 XOR";
"2 1 24519 24392 11388 XOR";
"2 1 16957 24392 11387 XOR";
"2 1 11388 11387 11386 AND";
"2 1 11386 24392 24393 XOR";
"2 1 24456 24393 1944 XOR";
"2 1 1944 16959 24268 XOR";
"2 1 24520 24393 11385 XOR";
"2 1 16958 24393 11384 XOR";
"2 1 11385 11384 11383 AND";
"2 1 11383 24393 24394 XOR";
"2 1 24457 24394 1943 XOR";
"2 1 1943 16960 24269 XOR";
"2 1 24521 24394 11382 XOR";
"2 1 16959 24394 11381 XOR";
"2 1 11382 11381 11380 AND";
"2 1 11380 24394 24395 XOR";
"2 1 24458 24395 1942 XOR";
"2 1 1942 16961 24270 XOR";
"2 1 24522 24395 11379 XOR";
"2 1 16960 24395 11378 XOR";
"2 1 11379 11378 11377 AND";
"2 1 11377 24395 24396 XOR";
"2 1 24459 24396 1941 XOR";
"2 1 1941 16962 24271 XOR";
"2 1 24523 24396 11376 XOR";
"2 1 16961 24396 11375 XOR";
"2 1 11376 11375 11374 AND";
"2 1 11374 24396 24397 XOR";
"2 1 24460 24397 1940 XOR";
"2 1 1940 16963 24272 XOR";
"2 1 24524 24397 11373 XOR";
"2 1 16962 24397 11372 XOR";
"2 1 11373 11372 11371 AND";
"2 1 11371 24397 24398 XOR";
"2 1 24461 24398 1939 XOR";
"2 1 1939 16964 24273 XOR";
"2 1 24525 24398 11370 XOR";
"2 1 16963 24398 11369 XOR";
"2 1 11370 11369 11368 AND";
"2 1 11368 24398 24399 XOR";
"2 1 24462 24399 1938 XOR";
"2 1 1938 16965 24274 XOR";
"2 1 24526 24399 11367 XOR";
"2 1 16964 24399 11366 XOR";
"2 1 11367 11366 11365 AND";
"2 1 11365 24399 24400 XOR";
"2 1 24463 24400 1937 XOR";
"2 1 1937 16966 24275 XOR";
"2 1 24527 24400 11364 XOR";
"2 1 16965 24400 11363 XOR";
"2 1 11364 11363 11362 AND";
"2 1 11362 24400 24401 XOR";
"2 1 24464 24401 1936 XOR";
"2 1 1936 16967 24276 XOR";
"2 1 24528 24401 11361 XOR";
"2 1 16966 24401 11360 XOR";
"2 1 11361 11360 11359 AND";
"2 1 11359 24401 24402 XOR";
"2 1 24465 24402 1935 XOR";
"2 1 1935 16968 24277 XOR";
"2 1 24529 24402 11358 XOR";
"2 1 16967 24402 11357 XOR";
"2 1 11358 11357 11356 AND";
"2 1 11356 24402 24403 XOR";
"2 1 24466 24403 1934 XOR";
"2 1 1934 16969 24278 XOR";
"2 1 24530 24403 11355 XOR";
"2 1 16968 24403 11354 XOR";
"2 1 11355 11354 11353 AND";
"2 1 11353 24403 24404 XOR";
"2 1 24467 24404 1933 XOR";
"2 1 1933 16970 24279 XOR";
"2 1 24531 24404 11352 XOR";
"2 1 16969 24404 11351 XOR";
"2 1 11352 11351 11350 AND";
"2 1 11350 24404 24405 XOR";
"2 1 24468 24405 1932 XOR";
"2 1 1932 16971 24280 XOR";
"2 1 24532 24405 11349 XOR";
"2 1 16970 24405 11348 XOR";
"2 1 11349 11348 11347 AND";
"2 1 11347 24405 24406 XOR";
"2 1 24469 24406 1931 XOR";
"2 1 1931 16972 24281 XOR";
"2 1 24533 24406 11346 XOR";
"2 1 16971 24406 11345 XOR";
"2 1 11346 11345 11344 AND";
"2 1 11344 24406 24407 XOR";
"2 1 24470 24407 1930 XOR";
"2 1 1930 16973 24282 XOR";
"2 1 24534 24407 11343 XOR";
"2 1 16972 24407 11342 XOR";
"2 1 11343 11342 11341 AND";
"2 1 11341 24407 24408 XOR";
"2 1 24471 24408 1929 XOR";
"2 1 1929 16974 24283 XOR";
"2 1 24535 24408 11340 XOR";
"2 1 16973 24408 11339 XOR";
"2 1 11340 11339 11338 AND";
"2 1 11338 24408 24409 XOR";
"2 1 24472 24409 1928 XOR";
"2 1 1928 16975 24284 XOR";
"2 1 24536 24409 11337 XOR";
"2 1 16974 24409 11336 XOR";
"2 1 11337 11336 11335 AND";
"2 1 11335 24409 24410 XOR";
"2 1 24473 24410 1927 XOR";
"2 1 1927 16976 24285 XOR";
"2 1 24537 24410 11334 XOR";
"2 1 16975 24410 11333 XOR";
"2 1 11334 11333 11332 AND";
"2 1 11332 24410 24411 XOR";
"2 1 24474 24411 1926 XOR";
"2 1 1926 16977 24286 XOR";
"2 1 24538 24411 11331 XOR";
"2 1 16976 24411 11330 XOR";
"2 1 11331 11330 11329 AND";
"2 1 11329 24411 24412 XOR";
"2 1 24475 24412 1925 XOR";
"2 1 1925 16978 24287 XOR";
"2 1 24539 24412 11328 XOR";
"2 1 16977 24412 11327 XOR";
"2 1 11328 11327 11326 AND";
"2 1 11326 24412 24413 XOR";
"2 1 24476 24413 1924 XOR";
"2 1 1924 16979 24288 XOR";
"2 1 24540 24413 11325 XOR";
"2 1 16978 24413 11324 XOR";
"2 1 11325 11324 11323 AND";
"2 1 11323 24413 24414 XOR";
"2 1 24477 24414 1923 XOR";
"2 1 1923 16980 24289 XOR";
"2 1 24541 24414 11322 XOR";
"2 1 16979 24414 11321 XOR";
"2 1 11322 11321 11320 AND";
"2 1 11320 24414 24415 XOR";
"2 1 24478 24415 1922 XOR";
"2 1 1922 16981 24290 XOR";
"2 1 24542 24415 11319 XOR";
"2 1 16980 24415 11318 XOR";
"2 1 11319 11318 11317 AND";
"2 1 11317 24415 24416 XOR";
"2 1 24479 24416 1921 XOR";
"2 1 1921 16982 24291 XOR";
"2 1 24543 24416 11316 XOR";
"2 1 16981 24416 11315 XOR";
"2 1 11316 11315 11314 AND";
"2 1 11314 24416 24417 XOR";
"2 1 24480 24417 1920 XOR";
"2 1 1920 16983 24292 XOR";
"2 1 24544 24417 11313 XOR";
"2 1 16982 24417 11312 XOR";
"2 1 11313 11312 11311 AND";
"2 1 11311 24417 24418 XOR";
"2 1 24481 24418 1919 XOR";
"2 1 1919 16984 24293 XOR";
"2 1 24545 24418 11310 XOR";
"2 1 16983 24418 11309 XOR";
"2 1 11310 11309 11308 AND";
"2 1 11308 24418 24419 XOR";
"2 1 24482 24419 1918 XOR";
"2 1 1918 16985 24294 XOR";
"2 1 24546 24419 11307 XOR";
"2 1 16984 24419 11306 XOR";
"2 1 11307 11306 11305 AND";
"2 1 11305 24419 24420 XOR";
"2 1 24483 24420 1917 XOR";
"2 1 1917 16986 24295 XOR";
"2 1 24547 24420 11304 XOR";
"2 1 16985 24420 11303 XOR";
"2 1 11304 11303 11302 AND";
"2 1 11302 24420 24421 XOR";
"2 1 24484 24421 1916 XOR";
"2 1 1916 16987 24296 XOR";
"2 1 24548 24421 11301 XOR";
"2 1 16986 24421 11300 XOR";
"2 1 11301 11300 11299 AND";
"2 1 11299 24421 24422 XOR";
"2 1 24485 24422 1915 XOR";
"2 1 1915 16988 24297 XOR";
"2 1 24549 24422 11298 XOR";
"2 1 16987 24422 11297 XOR";
"2 1 11298 11297 11296 AND";
"2 1 11296 24422 24423 XOR";
"2 1 24486 24423 1914 XOR";
"2 1 1914 16989 24298 XOR";
"2 1 24550 24423 11295 XOR";
"2 1 16988 24423 11294 XOR";
"2 1 11295 11294 11293 AND";
"2 1 11293 24423 24424 XOR";
"2 1 24487 24424 1913 XOR";
"2 1 1913 16990 24299 XOR";
"2 1 24551 24424 11292 XOR";
"2 1 16989 24424 11291 XOR";
"2 1 11292 11291 11290 AND";
"2 1 11290 24424 24425 XOR";
"2 1 24488 24425 1912 XOR";
"2 1 1912 16991 24300 XOR";
"2 1 24552 24425 11289 XOR";
"2 1 16990 24425 11288 XOR";
"2 1 11289 11288 11287 AND";
"2 1 11287 24425 24426 XOR";
"2 1 24489 24426 1911 XOR";
"2 1 1911 16992 24301 XOR";
"2 1 24553 24426 11286 XOR";
"2 1 16991 24426 11285 XOR";
"2 1 11286 11285 11284 AND";
"2 1 11284 24426 24427 XOR";
"2 1 24490 24427 1910 XOR";
"2 1 1910 16993 24302 XOR";
"2 1 24554 24427 11283 XOR";
"2 1 16992 24427 11282 XOR";
"2 1 11283 11282 11281 AND";
"2 1 11281 24427 24428 XOR";
"2 1 24491 24428 1909 XOR";
"2 1 1909 16994 24303 XOR";
"2 1 24555 24428 11280 XOR";
"2 1 16993 24428 11279 XOR";
"2 1 11280 11279 11278 AND";
"2 1 11278 24428 24429 XOR";
"2 1 24492 24429 1908 XOR";
"2 1 1908 16995 24304 XOR";
"2 1 24556 24429 11277 XOR";
"2 1 16994 24429 11276 XOR";
"2 1 11277 11276 11275 AND";
"2 1 11275 24429 24430 XOR";
"2 1 24493 24430 1907 XOR";
"2 1 1907 16996 24305 XOR";
"2 1 24557 24430 11274 XOR";
"2 1 16995 24430 11273 XOR";
"2 1 11274 11273 11272 AND";
"2 1 11272 24430 24431 XOR";
"2 1 24494 24431 1906 XOR";
"2 1 1906 16997 24306 XOR";
"2 1 24558 24431 11271 XOR";
"2 1 16996 24431 11270 XOR";
"2 1 11271 11270 11269 AND";
"2 1 11269 24431 24432 XOR";
"2 1 24495 24432 1905 XOR";
"2 1 1905 16998 24307 XOR";
"2 1 24559 24432 11268 XOR";
"2 1 16997 24432 11267 XOR";
"2 1 11268 11267 11266 AND";
"2 1 11266 24432 24433 XOR";
"2 1 24496 24433 1904 XOR";
"2 1 1904 16999 24308 XOR";
"2 1 24560 24433 11265 XOR";
"2 1 16998 24433 11264 XOR";
"2 1 11265 11264 11263 AND";
"2 1 11263 24433 24434 XOR";
"2 1 24497 24434 1903 XOR";
"2 1 1903 17000 24309 XOR";
"2 1 24561 24434 11262 XOR";
"2 1 16999 24434 11261 XOR";
"2 1 11262 11261 11260 AND";
"2 1 11260 24434 24435 XOR";
"2 1 24498 24435 1902 XOR";
"2 1 1902 17001 24310 XOR";
"2 1 24562 24435 11259 XOR";
"2 1 17000 24435 11258 XOR";
"2 1 11259 11258 11257 AND";
"2 1 11257 24435 24436 XOR";
"2 1 24499 24436 1901 XOR";
"2 1 1901 17002 24311 XOR";
"2 1 24563 24436 11256 XOR";
"2 1 17001 24436 11255 XOR";
"2 1 11256 11255 11254 AND";
"2 1 11254 24436 24437 XOR";
"2 1 24500 24437 1900 XOR";
"2 1 1900 17003 24312 XOR";
"2 1 24564 24437 11253 XOR";
"2 1 17002 24437 11252 XOR";
"2 1 11253 11252 11251 AND";
"2 1 11251 24437 24438 XOR";
"2 1 24501 24438 1899 XOR";
"2 1 1899 17004 24313 XOR";
"2 1 24565 24438 11250 XOR";
"2 1 17003 24438 11249 XOR";
"2 1 11250 11249 11248 AND";
"2 1 11248 24438 24439 XOR";
"2 1 24502 24439 1898 XOR";
"2 1 1898 17005 24314 XOR";
"2 1 24566 24439 11247 XOR";
"2 1 17004 24439 11246 XOR";
"2 1 11247 11246 11245 AND";
"2 1 11245 24439 24440 XOR";
"2 1 24503 24440 1897 XOR";
"2 1 1897 17006 24315 XOR";
"2 1 24567 24440 11244 XOR";
"2 1 17005 24440 11243 XOR";
"2 1 11244 11243 11242 AND";
"2 1 11242 24440 24441 XOR";
"2 1 24504 24441 1896 XOR";
"2 1 1896 17007 24316 XOR";
"2 1 24568 24441 11241 XOR";
"2 1 17006 24441 11240 XOR";
"2 1 11241 11240 11239 AND";
"2 1 11239 24441 24442 XOR";
"2 1 24505 24442 1895 XOR";
"2 1 1895 17008 24317 XOR";
"2 1 24569 24442 11238 XOR";
"2 1 17007 24442 11237 XOR";
"2 1 11238 11237 11236 AND";
"2 1 11236 24442 24443 XOR";
"2 1 24506 24443 1894 XOR";
"2 1 1894 17009 24318 XOR";
"2 1 24570 24443 11235 XOR";
"2 1 17008 24443 11234 XOR";
"2 1 11235 11234 11233 AND";
"2 1 11233 24443 24444 XOR";
"2 1 24507 24444 157 XOR";
"2 1 16666 4535 17550 AND";
"1 1 157 16665 INV";
"2 1 16854 16665 24319 XOR";
"2 1 1956 16665 24320 XOR";
"2 1 1955 16665 24321 XOR";
"2 1 1954 16665 24322 XOR";
"2 1 1953 16665 24323 XOR";
"2 1 1952 16665 24324 XOR";
"2 1 1951 16665 24325 XOR";
"2 1 1950 16665 24326 XOR";
"2 1 1949 16665 24327 XOR";
"2 1 1948 16665 24328 XOR";
"2 1 1947 16665 24329 XOR";
"2 1 1946 16665 24330 XOR";
"2 1 1945 16665 24331 XOR";
"2 1 1944 16665 24332 XOR";
"2 1 1943 16665 24333 XOR";
"2 1 1942 16665 24334 XOR";
"2 1 1941 16665 24335 XOR";
"2 1 1940 16665 24336 XOR";
"2 1 1939 16665 24337 XOR";
"2 1 1938 16665 24338 XOR";
"2 1 1937 16665 24339 XOR";
"2 1 1936 16665 24340 XOR";
"2 1 1935 16665 24341 XOR";
"2 1 1934 16665 24342 XOR";
"2 1 1933 16665 24343 XOR";
"2 1 1932 16665 24344 XOR";
"2 1 1931 16665 24345 XOR";
"2 1 1930 16665 24346 XOR";
"2 1 1929 16665 24347 XOR";
"2 1 1928 16665 24348 XOR";
"2 1 1927 16665 24349 XOR";
"2 1 1926 16665 24350 XOR";
"2 1 1925 16665 24351 XOR";
"2 1 1924 16665 24352 XOR";
"2 1 1923 16665 24353 XOR";
"2 1 1922 16665 24354 XOR";
"2 1 1921 16665 24355 XOR";
"2 1 1920 16665 24356 XOR";
"2 1 1919 16665 24357 XOR";
"2 1 1918 16665 24358 XOR";
"2 1 1917 16665 24359 XOR";
"2 1 1916 16665 24360 XOR";
"2 1 1915 16665 24361 XOR";
"2 1 1914 16665 24362 XOR";
"2 1 1913 16665 24363 XOR";
"2 1 1912 16665 24364 XOR";
"2 1 1911 16665 24365 XOR";
"2 1 1910 16665 24366 XOR";
"2 1 1909 16665 24367 XOR";
"2 1 1908 16665 24368 XOR";
"2 1 1907 16665 24369 XOR";
"2 1 1906 16665 24370 XOR";
"2 1 1905 16665 24371 XOR";
"2 1 1904 16665 24372 XOR";
"2 1 1903 16665 24373 XOR";
"2 1 1902 16665 24374 XOR";
"2 1 1901 16665 24375 XOR";
"2 1 1900 16665 24376 XOR";
"2 1 1899 16665 24377 XOR";
"2 1 1898 16665 24378 XOR";
"2 1 1897 16665 24379 XOR";
"2 1 1896 16665 24380 XOR";
"2 1 1895 16665 24381 XOR";
"2 1 24319 16946 24193 AND";
"2 1 24256 24193 2018 XOR";
"2 1 2018 16948 24068 XOR";
"2 1 24320 24193 11232 XOR";
"2 1 16947 24193 11231 XOR";
"2 1 11232 11231 11230 AND";
"2 1 11230 24193 24194 XOR";
"2 1 24257 24194 2017 XOR";
"2 1 2017 16949 24069 XOR";
"2 1 24321 24194 11229 XOR";
"2 1 16948 24194 11228 XOR";
"2 1 11229 11228 11227 AND";
"2 1 11227 24194 24195 XOR";
"2 1 24258 24195 2016 XOR";
"2 1 2016 16950 24070 XOR";
"2 1 24322 24195 11226 XOR";
"2 1 16949 24195 11225 XOR";
"2 1 11226 11225 11224 AND";
"2 1 11224 24195 24196 XOR";
"2 1 24259 24196 2015 XOR";
"2 1 2015 16951 24071 XOR";
"2 1 24323 24196 11223 XOR";
"2 1 16950 24196 11222 XOR";
"2 1 11223 11222 11221 AND";
"2 1 11221 24196 24197 XOR";
"2 1 24260 24197 2014 XOR";
"2 1 2014 16952 24072 XOR";
"2 1 24324 24197 11220 XOR";
"2 1 16951 24197 11219 XOR";
"2 1 11220 11219 11218 AND";
"2 1 11218 24197 24198 XOR";
"2 1 24261 24198 2013 XOR";
"2 1 2013 16953 24073 XOR";
"2 1 24325 24198 11217 XOR";
"2 1 16952 24198 11216 XOR";
"2 1 11217 11216 11215 AND";
"2 1 11215 24198 24199 XOR";
"2 1 24262 24199 2012 XOR";
"2 1 2012 16954 24074 XOR";
"2 1 24326 24199 11214 XOR";
"2 1 16953 24199 11213 XOR";
"2 1 11214 11213 11212 AND";
"2 1 11212 24199 24200 XOR";
"2 1 24263 24200 2011 XOR";
"2 1 2011 16955 24075 XOR";
"2 1 24327 24200 11211 XOR";
"2 1 16954 24200 11210 XOR";
"2 1 11211 11210 11209 AND";
"2 1 11209 24200 24201 XOR";
"2 1 24264 24201 2010 XOR";
"2 1 2010 16956 24076 XOR";
"2 1 24328 24201 11208 XOR";
"2 1 16955 24201 11207 XOR";
"2 1 11208 11207 11206 AND";
"2 1 11206 24201 24202 XOR";
"2 1 24265 24202 2009 XOR";
"2 1 2009 16957 24077 XOR";
"2 1 24329 24202 11205 XOR";
"2 1 16956 24202 11204 XOR";
"2 1 11205 11204 11203 AND";
"2 1 11203 24202 24203 XOR";
"2 1 24266 24203 2008 XOR";
"2 1 2008 16958 24078 XOR";
"2 1 24330 24203 11202 XOR";
"2 1 16957 24203 11201 XOR";
"2 1 11202 11201 11200 AND";
"2 1 11200 24203 24204 XOR";
"2 1 24267 24204 2007 XOR";
"2 1 2007 16959 24079 XOR";
"2 1 24331 24204 11199 XOR";
"2 1 16958 24204 11198 XOR";
"2 1 11199 11198 11197 AND";
"2 1 11197 24204 24205 XOR";
"2 1 24268 24205 2006 XOR";
"2 1 2006 16960 24080 XOR";
"2 1 24332 24205 11196 XOR";
"2 1 16959 24205 11195 XOR";
"2 1 11196 11195 11194 AND";
"2 1 11194 24205 24206 XOR";
"2 1 24269 24206 2005 XOR";
"2 1 2005 16961 24081 XOR";
"2 1 24333 24206 11193 XOR";
"2 1 16960 24206 11192 XOR";
"2 1 11193 11192 11191 AND";
"2 1 11191 24206 24207 XOR";
"2 1 24270 24207 2004 XOR";
"2 1 2004 16962 24082 XOR";
"2 1 24334 24207 11190 XOR";
"2 1 16961 24207 11189 XOR";
"2 1 11190 11189 11188 AND";
"2 1 11188 24207 24208 XOR";
"2 1 24271 24208 2003 XOR";
"2 1 2003 16963 24083 XOR";
"2 1 24335 24208 11187 XOR";
"2 1 16962 24208 11186 XOR";
"2 1 11187 11186 11185 AND";
"2 1 11185 24208 24209 XOR";
"2 1 24272 24209 2002 XOR";
"2 1 2002 16964 24084 XOR";
"2 1 24336 24209 11184 XOR";
"2 1 16963 24209 11183 XOR";
"2 1 11184 11183 11182 AND";
"2 1 11182 24209 24210 XOR";
"2 1 24273 24210 2001 XOR";
"2 1 2001 16965 24085 XOR";
"2 1 24337 24210 11181 XOR";
"2 1 16964 24210 11180 XOR";
"2 1 11181 11180 11179 AND";
"2 1 11179 24210 24211 XOR";
"2 1 24274 24211 2000 XOR";
"2 1 2000 16966 24086 XOR";
"2 1 24338 24211 11178 XOR";
"2 1 16965 24211 11177 XOR";
"2 1 11178 11177 11176 AND";
"2 1 11176 24211 24212 XOR";
"2 1 24275 24212 1999 XOR";
"2 1 1999 16967 24087 XOR";
"2 1 24339 24212 11175 XOR";
"2 1 16966 24212 11174 XOR";
"2 1 11175 11174 11173 AND";
"2 1 11173 24212 24213 XOR";
"2 1 24276 24213 1998 XOR";
"2 1 1998 16968 24088 XOR";
"2 1 24340 24213 11172 XOR";
"2 1 16967 24213 11171 XOR";
"2 1 11172 11171 11170 AND";
"2 1 11170 24213 24214 XOR";
"2 1 24277 24214 1997 XOR";
"2 1 1997 16969 24089 XOR";
"2 1 24341 24214 11169 XOR";
"2 1 16968 24214 11168 XOR";
"2 1 11169 11168 11167 AND";
"2 1 11167 24214 24215 XOR";
"2 1 24278 24215 1996 XOR";
"2 1 1996 16970 24090 XOR";
"2 1 24342 24215 11166 XOR";
"2 1 16969 24215 11165 XOR";
"2 1 11166 11165 11164 AND";
"2 1 11164 24215 24216 XOR";
"2 1 24279 24216 1995 XOR";
"2 1 1995 16971 24091 XOR";
"2 1 24343 24216 11163 XOR";
"2 1 16970 24216 11162 XOR";
"2 1 11163 11162 11161 AND";
"2 1 11161 24216 24217 XOR";
"2 1 24280 24217 1994 XOR";
"2 1 1994 16972 24092 XOR";
"2 1 24344 24217 11160 XOR";
"2 1 16971 24217 11159 XOR";
"2 1 11160 11159 11158 AND";
"2 1 11158 24217 24218 XOR";
"2 1 24281 24218 1993 XOR";
"2 1 1993 16973 24093 XOR";
"2 1 24345 24218 11157 XOR";
"2 1 16972 24218 11156 XOR";
"2 1 11157 11156 11155 AND";
"2 1 11155 24218 24219 XOR";
"2 1 24282 24219 1992 XOR";
"2 1 1992 16974 24094 XOR";
"2 1 24346 24219 11154 XOR";
"2 1 16973 24219 11153 XOR";
"2 1 11154 11153 11152 AND";
"2 1 11152 24219 24220 XOR";
"2 1 24283 24220 1991 XOR";
"2 1 1991 16975 24095 XOR";
"2 1 24347 24220 11151 XOR";
"2 1 16974 24220 11150 XOR";
"2 1 11151 11150 11149 AND";
"2 1 11149 24220 24221 XOR";
"2 1 24284 24221 1990 XOR";
"2 1 1990 16976 24096 XOR";
"2 1 24348 24221 11148 XOR";
"2 1 16975 24221 11147 XOR";
"2 1 11148 11147 11146 AND";
"2 1 11146 24221 24222 XOR";
"2 1 24285 24222 1989 XOR";
"2 1 1989 16977 24097 XOR";
"2 1 24349 24222 11145 XOR";
"2 1 16976 24222 11144 XOR";
"2 1 11145 11144 11143 AND";
"2 1 11143 24222 24223 XOR";
"2 1 24286 24223 1988 XOR";
"2 1 1988 16978 24098 XOR";
"2 1 24350 24223 11142 XOR";
"2 1 16977 24223 11141 XOR";
"2 1 11142 11141 11140 AND";
"2 1 11140 24223 24224 XOR";
"2 1 24287 24224 1987 XOR";
"2 1 1987 16979 24099 XOR";
"2 1 24351 24224 11139 XOR";
"2 1 16978 24224 11138 XOR";
"2 1 11139 11138 11137 AND";
"2 1 11137 24224 24225 XOR";
"2 1 24288 24225 1986 XOR";
"2 1 1986 16980 24100 XOR";
"2 1 24352 24225 11136 XOR";
"2 1 16979 24225 11135 XOR";
"2 1 11136 11135 11134 AND";
"2 1 11134 24225 24226 XOR";
"2 1 24289 24226 1985 XOR";
"2 1 1985 16981 24101 XOR";
"2 1 24353 24226 11133 XOR";
"2 1 16980 24226 11132 XOR";
"2 1 11133 11132 11131 AND";
"2 1 11131 24226 24227 XOR";
"2 1 24290 24227 1984 XOR";
"2 1 1984 16982 24102 XOR";
"2 1 24354 24227 11130 XOR";
"2 1 16981 24227 11129 XOR";
"2 1 11130 11129 11128 AND";
"2 1 11128 24227 24228 XOR";
"2 1 24291 24228 1983 XOR";
"2 1 1983 16983 24103 XOR";
"2 1 24355 24228 11127 XOR";
"2 1 16982 24228 11126 XOR";
"2 1 11127 11126 11125 AND";
"2 1 11125 24228 24229 XOR";
"2 1 24292 24229 1982 XOR";
"2 1 1982 16984 24104 XOR";
"2 1 24356 24229 11124 XOR";
"2 1 16983 24229 11123 XOR";
"2 1 11124 11123 11122 AND";
"2 1 11122 24229 24230 XOR";
"2 1 24293 24230 1981 XOR";
"2 1 1981 16985 24105 XOR";
"2 1 24357 24230 11121 XOR";
"2 1 16984 24230 11120 XOR";
"2 1 11121 11120 11119 AND";
"2 1 11119 24230 24231 XOR";
"2 1 24294 24231 1980 XOR";
"2 1 1980 16986 24106 XOR";
"2 1 24358 24231 11118 XOR";
"2 1 16985 24231 11117 XOR";
"2 1 11118 11117 11116 AND";
"2 1 11116 24231 24232 XOR";
"2 1 24295 24232 1979 XOR";
"2 1 1979 16987 24107 XOR";
"2 1 24359 24232 11115 XOR";
"2 1 16986 24232 11114 XOR";
"2 1 11115 11114 11113 AND";
"2 1 11113 24232 24233 XOR";
"2 1 24296 24233 1978 XOR";
"2 1 1978 16988 24108 XOR";
"2 1 24360 24233 11112 XOR";
"2 1 16987 24233 11111 XOR";
"2 1 11112 11111 11110 AND";
"2 1 11110 24233 24234 XOR";
"2 1 24297 24234 1977 XOR";
"2 1 1977 16989 24109 XOR";
"2 1 24361 24234 11109 XOR";
"2 1 16988 24234 11108 XOR";
"2 1 11109 11108 11107 AND";
"2 1 11107 24234 24235 XOR";
"2 1 24298 24235 1976 XOR";
"2 1 1976 16990 24110 XOR";
"2 1 24362 24235 11106 XOR";
"2 1 16989 24235 11105 XOR";
"2 1 11106 11105 11104 AND";
"2 1 11104 24235 24236 XOR";
"2 1 24299 24236 1975 XOR";
"2 1 1975 16991 24111 XOR";
"2 1 24363 24236 11103 XOR";
"2 1 16990 24236 11102 XOR";
"2 1 11103 11102 11101 AND";
"2 1 11101 24236 24237 XOR";
"2 1 24300 24237 1974 XOR";
"2 1 1974 16992 24112 XOR";
"2 1 24364 24237 11100 XOR";
"2 1 16991 24237 11099 XOR";
"2 1 11100 11099 11098 AND";
"2 1 11098 24237 24238 XOR";
"2 1 24301 24238 1973 XOR";
"2 1 1973 16993 24113 XOR";
"2 1 24365 24238 11097 XOR";
"2 1 16992 24238 11096 XOR";
"2 1 11097 11096 11095 AND";
"2 1 11095 24238 24239 XOR";
"2 1 24302 24239 1972 XOR";
"2 1 1972 16994 24114 XOR";
"2 1 24366 24239 11094 XOR";
"2 1 16993 24239 11093 XOR";
"2 1 11094 11093 11092 AND";
"2 1 11092 24239 24240 XOR";
"2 1 24303 24240 1971 XOR";
"2 1 1971 16995 24115 XOR";
"2 1 24367 24240 11091 XOR";
"2 1 16994 24240 11090 XOR";
"2 1 11091 11090 11089 AND";
"2 1 11089 24240 24241 XOR";
"2 1 24304 24241 1970 XOR";
"2 1 1970 16996 24116 XOR";
"2 1 24368 24241 11088 XOR";
"2 1 16995 24241 11087 XOR";
"2 1 11088 11087 11086 AND";
"2 1 11086 24241 24242 XOR";
"2 1 24305 24242 1969 XOR";
"2 1 1969 16997 24117 XOR";
"2 1 24369 24242 11085 XOR";
"2 1 16996 24242 11084 XOR";
"2 1 11085 11084 11083 AND";
"2 1 11083 24242 24243 XOR";
"2 1 24306 24243 1968 XOR";
"2 1 1968 16998 24118 XOR";
"2 1 24370 24243 11082 XOR";
"2 1 16997 24243 11081 XOR";
"2 1 11082 11081 11080 AND";
"2 1 11080 24243 24244 XOR";
"2 1 24307 24244 1967 XOR";
"2 1 1967 16999 24119 XOR";
"2 1 24371 24244 11079 XOR";
"2 1 16998 24244 11078 XOR";
"2 1 11079 11078 11077 AND";
"2 1 11077 24244 24245 XOR";
"2 1 24308 24245 1966 XOR";
"2 1 1966 17000 24120 XOR";
"2 1 24372 24245 11076 XOR";
"2 1 16999 24245 11075 XOR";
"2 1 11076 11075 11074 AND";
"2 1 11074 24245 24246 XOR";
"2 1 24309 24246 1965 XOR";
"2 1 1965 17001 24121 XOR";
"2 1 24373 24246 11073 XOR";
"2 1 17000 24246 11072 XOR";
"2 1 11073 11072 11071 AND";
"2 1 11071 24246 24247 XOR";
"2 1 24310 24247 1964 XOR";
"2 1 1964 17002 24122 XOR";
"2 1 24374 24247 11070 XOR";
"2 1 17001 24247 11069 XOR";
"2 1 11070 11069 11068 AND";
"2 1 11068 24247 24248 XOR";
"2 1 24311 24248 1963 XOR";
"2 1 1963 17003 24123 XOR";
"2 1 24375 24248 11067 XOR";
"2 1 17002 24248 11066 XOR";
"2 1 11067 11066 11065 AND";
"2 1 11065 24248 24249 XOR";
"2 1 24312 24249 1962 XOR";
"2 1 1962 17004 24124 XOR";
"2 1 24376 24249 11064 XOR";
"2 1 17003 24249 11063 XOR";
"2 1 11064 11063 11062 AND";
"2 1 11062 24249 24250 XOR";
"2 1 24313 24250 1961 XOR";
"2 1 1961 17005 24125 XOR";
"2 1 24377 24250 11061 XOR";
"2 1 17004 24250 11060 XOR";
"2 1 11061 11060 11059 AND";
"2 1 11059 24250 24251 XOR";
"2 1 24314 24251 1960 XOR";
"2 1 1960 17006 24126 XOR";
"2 1 24378 24251 11058 XOR";
"2 1 17005 24251 11057 XOR";
"2 1 11058 11057 11056 AND";
"2 1 11056 24251 24252 XOR";
"2 1 24315 24252 1959 XOR";
"2 1 1959 17007 24127 XOR";
"2 1 24379 24252 11055 XOR";
"2 1 17006 24252 11054 XOR";
"2 1 11055 11054 11053 AND";
"2 1 11053 24252 24253 XOR";
"2 1 24316 24253 1958 XOR";
"2 1 1958 17008 24128 XOR";
"2 1 24380 24253 11052 XOR";
"2 1 17007 24253 11051 XOR";
"2 1 11052 11051 11050 AND";
"2 1 11050 24253 24254 XOR";
"2 1 24317 24254 1957 XOR";
"2 1 1957 17009 24129 XOR";
"2 1 24381 24254 11049 XOR";
"2 1 17008 24254 11048 XOR";
"2 1 11049 11048 11047 AND";
"2 1 11047 24254 24255 XOR";
"2 1 24318 24255 158 XOR";
"1 1 158 16664 INV";
"2 1 16853 16664 24130 XOR";
"2 1 2019 16664 24131 XOR";
"2 1 2018 16664 24132 XOR";
"2 1 2017 16664 24133 XOR";
"2 1 2016 16664 24134 XOR";
"2 1 2015 16664 24135 XOR";
"2 1 2014 16664 24136 XOR";
"2 1 2013 16664 24137 XOR";
"2 1 2012 16664 24138 XOR";
"2 1 2011 16664 24139 XOR";
"2 1 2010 16664 24140 XOR";
"2 1 2009 16664 24141 XOR";
"2 1 2008 16664 24142 XOR";
"2 1 2007 16664 24143 XOR";
"2 1 2006 16664 24144 XOR";
"2 1 2005 16664 24145 XOR";
"2 1 2004 16664 24146 XOR";
"2 1 2003 16664 24147 XOR";
"2 1 2002 16664 24148 XOR";
"2 1 2001 16664 24149 XOR";
"2 1 2000 16664 24150 XOR";
"2 1 1999 16664 24151 XOR";
"2 1 1998 16664 24152 XOR";
"2 1 1997 16664 24153 XOR";
"2 1 1996 16664 24154 XOR";
"2 1 1995 16664 24155 XOR";
"2 1 1994 16664 24156 XOR";
"2 1 1993 16664 24157 XOR";
"2 1 1992 16664 24158 XOR";
"2 1 1991 16664 24159 XOR";
"2 1 1990 16664 24160 XOR";
"2 1 1989 16664 24161 XOR";
"2 1 1988 16664 24162 XOR";
"2 1 1987 16664 24163 XOR";
"2 1 1986 16664 24164 XOR";
"2 1 1985 16664 24165 XOR";
"2 1 1984 16664 24166 XOR";
"2 1 1983 16664 24167 XOR";
"2 1 1982 16664 24168 XOR";
"2 1 1981 16664 24169 XOR";
"2 1 1980 16664 24170 XOR";
"2 1 1979 16664 24171 XOR";
"2 1 1978 16664 24172 XOR";
"2 1 1977 16664 24173 XOR";
"2 1 1976 16664 24174 XOR";
"2 1 1975 16664 24175 XOR";
"2 1 1974 16664 24176 XOR";
"2 1 1973 16664 24177 XOR";
"2 1 1972 16664 24178 XOR";
"2 1 1971 16664 24179 XOR";
"2 1 1970 16664 24180 XOR";
"2 1 1969 16664 24181 XOR";
"2 1 1968 16664 24182 XOR";
"2 1 1967 16664 24183 XOR";
"2 1 1966 16664 24184 XOR";
"2 1 1965 16664 24185 XOR";
"2 1 1964 16664 24186 XOR";
"2 1 1963 16664 24187 XOR";
"2 1 1962 16664 24188 XOR";
"2 1 1961 16664 24189 XOR";
"2 1 1960 16664 24190 XOR";
"2 1 1959 16664 24191 XOR";
"2 1 1958 16664 24192 XOR";
"2 1 24130 16946 24004 AND";
"2 1 24067 24004 2081 XOR";
"2 1 2081 16948 23879 XOR";
"2 1 24131 24004 11046 XOR";
"2 1 16947 24004 11045 XOR";
"2 1 11046 11045 11044 AND";
"2 1 11044 24004 24005 XOR";
"2 1 24068 24005 2080 XOR";
"2 1 2080 16949 23880 XOR";
"2 1 24132 24005 11043 XOR";
"2 1 16948 24005 11042 XOR";
"2 1 11043 11042 11041 AND";
"2 1 11041 24005 24006 XOR";
"2 1 24069 24006 2079 XOR";
"2 1 2079 16950 23881 XOR";
"2 1 24133 24006 11040 XOR";
"2 1 16949 24006 11039 XOR";
"2 1 11040 11039 11038 AND";
"2 1 11038 24006 24007 XOR";
"2 1 24070 24007 2078 XOR";
"2 1 2078 16951 23882 XOR";
"2 1 24134 24007 11037 XOR";
"2 1 16950 24007 11036 XOR";
"2 1 11037 11036 11035 AND";
"2 1 11035 24007 24008 XOR";
"2 1 24071 24008 2077 XOR";
"2 1 2077 16952 23883 XOR";
"2 1 24135 24008 11034 XOR";
"2 1 16951 24008 11033 XOR";
"2 1 11034 11033 11032 AND";
"2 1 11032 24008 24009 XOR";
"2 1 24072 24009 2076 XOR";
"2 1 2076 16953 23884 XOR";
"2 1 24136 24009 11031 XOR";
"2 1 16952 24009 11030 XOR";
"2 1 11031 11030 11029 AND";
"2 1 11029 24009 24010 XOR";
"2 1 24073 24010 2075 XOR";
"2 1 2075 16954 23885 XOR";
"2 1 24137 24010 11028 XOR";
"2 1 16953 24010 11027 XOR";
"2 1 11028 11027 11026 AND";
"2 1 11026 24010 24011 XOR";
"2 1 24074 24011 2074 XOR";
"2 1 2074 16955 23886 XOR";
"2 1 24138 24011 11025 XOR";
"2 1 16954 24011 11024 XOR";
"2 1 11025 11024 11023 AND";
"2 1 11023 24011 24012 XOR";
"2 1 24075 24012 2073 XOR";
"2 1 2073 16956 23887 XOR";
"2 1 24139 24012 11022 XOR";
"2 1 16955 24012 11021 XOR";
"2 1 11022 11021 11020 AND";
"2 1 11020 24012 24013 XOR";
"2 1 24076 24013 2072 XOR";
"2 1 2072 16957 23888 XOR";
"2 1 24140 24013 11019 XOR";
"2 1 16956 24013 11018 XOR";
"2 1 11019 11018 11017 AND";
"2 1 11017 24013 24014 XOR";
"2 1 24077 24014 2071 XOR";
"2 1 2071 16958 23889 XOR";
"2 1 24141 24014 11016 XOR";
"2 1 16957 24014 11015 XOR";
"2 1 11016 11015 11014 AND";
"2 1 11014 24014 24015 XOR";
"2 1 24078 24015 2070 XOR";
"2 1 2070 16959 23890 XOR";
"2 1 24142 24015 11013 XOR";
"2 1 16958 24015 11012 XOR";
"2 1 11013 11012 11011 AND";
"2 1 11011 24015 24016 XOR";
"2 1 24079 24016 2069 XOR";
"2 1 2069 16960 23891 XOR";
"2 1 24143 24016 11010 XOR";
"2 1 16959 24016 11009 XOR";
"2 1 11010 11009 11008 AND";
"2 1 11008 24016 24017 XOR";
"2 1 24080 24017 2068 XOR";
"2 1 2068 16961 23892 XOR";
"2 1 24144 24017 11007 XOR";
"2 1 16960 24017 11006 XOR";
"2 1 11007 11006 11005 AND";
"2 1 11005 24017 24018 XOR";
"2 1 24081 24018 2067 XOR";
"2 1 2067 16962 23893 XOR";
"2 1 24145 24018 11004 XOR";
"2 1 16961 24018 11003 XOR";
"2 1 11004 11003 11002 AND";
"2 1 11002 24018 24019 XOR";
"2 1 24082 24019 2066 XOR";
"2 1 2066 16963 23894 XOR";
"2 1 24146 24019 11001 XOR";
"2 1 16962 24019 11000 XOR";
"2 1 11001 11000 10999 AND";
"2 1 10999 24019 24020 XOR";
"2 1 24083 24020 2065 XOR";
"2 1 2065 16964 23895 XOR";
"2 1 24147 24020 10998 XOR";
"2 1 16963 24020 10997 XOR";
"2 1 10998 10997 10996 AND";
"2 1 10996 24020 24021 XOR";
"2 1 24084 24021 2064 XOR";
"2 1 2064 16965 23896 XOR";
"2 1 24148 24021 10995 XOR";
"2 1 16964 24021 10994 XOR";
"2 1 10995 10994 10993 AND";
"2 1 10993 24021 24022 XOR";
"2 1 24085 24022 2063 XOR";
"2 1 2063 16966 23897 XOR";
"2 1 24149 24022 10992 XOR";
"2 1 16965 24022 10991 XOR";
"2 1 10992 10991 10990 AND";
"2 1 10990 24022 24023 XOR";
"2 1 24086 24023 2062 XOR";
"2 1 2062 16967 23898 XOR";
"2 1 24150 24023 10989 XOR";
"2 1 16966 24023 10988 XOR";
"2 1 10989 10988 10987 AND";
"2 1 10987 24023 24024 XOR";
"2 1 24087 24024 2061 XOR";
"2 1 2061 16968 23899 XOR";
"2 1 24151 24024 10986 XOR";
"2 1 16967 24024 10985 XOR";
"2 1 10986 10985 10984 AND";
"2 1 10984 24024 24025 XOR";
"2 1 24088 24025 2060 XOR";
"2 1 2060 16969 23900 XOR";
"2 1 24152 24025 10983 XOR";
"2 1 16968 24025 10982 XOR";
"2 1 10983 10982 10981 AND";
"2 1 10981 24025 24026 XOR";
"2 1 24089 24026 2059 XOR";
"2 1 2059 16970 23901 XOR";
"2 1 24153 24026 10980 XOR";
"2 1 16969 24026 10979 XOR";
"2 1 10980 10979 10978 AND";
"2 1 10978 24026 24027 XOR";
"2 1 24090 24027 2058 XOR";
"2 1 2058 16971 23902 XOR";
"2 1 24154 24027 10977 XOR";
"2 1 16970 24027 10976 XOR";
"2 1 10977 10976 10975 AND";
"2 1 10975 24027 24028 XOR";
"2 1 24091 24028 2057 XOR";
"2 1 2057 16972 23903 XOR";
"2 1 24155 24028 10974 XOR";
"2 1 16971 24028 10973 XOR";
"2 1 10974 10973 10972 AND";
"2 1 10972 24028 24029 XOR";
"2 1 24092 24029 2056 XOR";
"2 1 2056 16973 23904 XOR";
"2 1 24156 24029 10971 XOR";
"2 1 16972 24029 10970 XOR";
"2 1 10971 10970 10969 AND";
"2 1 10969 24029 24030 XOR";
"2 1 24093 24030 2055 XOR";
"2 1 2055 16974 23905 XOR";
"2 1 24157 24030 10968 XOR";
"2 1 16973 24030 10967 XOR";
"2 1 10968 10967 10966 AND";
"2 1 10966 24030 24031 XOR";
"2 1 24094 24031 2054 XOR";
"2 1 2054 16975 23906 XOR";
"2 1 24158 24031 10965 XOR";
"2 1 16974 24031 10964 XOR";
"2 1 10965 10964 10963 AND";
"2 1 10963 24031 24032 XOR";
"2 1 24095 24032 2053 XOR";
"2 1 2053 16976 23907 XOR";
"2 1 24159 24032 10962 XOR";
"2 1 16975 24032 10961 XOR";
"2 1 10962 10961 10960 AND";
"2 1 10960 24032 24033 XOR";
"2 1 24096 24033 2052 XOR";
"2 1 2052 16977 23908 XOR";
"2 1 24160 24033 10959 XOR";
"2 1 16976 24033 10958 XOR";
"2 1 10959 10958 10957 AND";
"2 1 10957 24033 24034 XOR";
"2 1 24097 24034 2051 XOR";
"2 1 2051 16978 23909 XOR";
"2 1 24161 24034 10956 XOR";
"2 1 16977 24034 10955 XOR";
"2 1 10956 10955 10954 AND";
"2 1 10954 24034 24035 XOR";
"2 1 24098 24035 2050 XOR";
"2 1 2050 16979 23910 XOR";
"2 1 24162 24035 10953 XOR";
"2 1 16978 24035 10952 XOR";
"2 1 10953 10952 10951 AND";
"2 1 10951 24035 24036 XOR";
"2 1 24099 24036 2049 XOR";
"2 1 2049 16980 23911 XOR";
"2 1 24163 24036 10950 XOR";
"2 1 16979 24036 10949 XOR";
"2 1 10950 10949 10948 AND";
"2 1 10948 24036 24037 XOR";
"2 1 24100 24037 2048 XOR";
"2 1 2048 16981 23912 XOR";
"2 1 24164 24037 10947 XOR";
"2 1 16980 24037 10946 XOR";
"2 1 10947 10946 10945 AND";
"2 1 10945 24037 24038 XOR";
"2 1 24101 24038 2047 XOR";
"2 1 2047 16982 23913 XOR";
"2 1 24165 24038 10944 XOR";
"2 1 16981 24038 10943 XOR";
"2 1 10944 10943 10942 AND";
"2 1 10942 24038 24039 XOR";
"2 1 24102 24039 2046 XOR";
"2 1 2046 16983 23914 XOR";
"2 1 24166 24039 10941 XOR";
"2 1 16982 24039 10940 XOR";
"2 1 10941 10940 10939 AND";
"2 1 10939 24039 24040 XOR";
"2 1 24103 24040 2045 XOR";
"2 1 2045 16984 23915 XOR";
"2 1 24167 24040 10938 XOR";
"2 1 16983 24040 10937 XOR";
"2 1 10938 10937 10936 AND";
"2 1 10936 24040 24041 XOR";
"2 1 24104 24041 2044 XOR";
"2 1 2044 16985 23916 XOR";
"2 1 24168 24041 10935 XOR";
"2 1 16984 24041 10934 XOR";
"2 1 10935 10934 10933 AND";
"2 1 10933 24041 24042 XOR";
"2 1 24105 24042 2043 XOR";
"2 1 2043 16986 23917 XOR";
"2 1 24169 24042 10932 XOR";
"2 1 16985 24042 10931 XOR";
"2 1 10932 10931 10930 AND";
"2 1 10930 24042 24043 XOR";
"2 1 24106 24043 2042 XOR";
"2 1 2042 16987 23918 XOR";
"2 1 24170 24043 10929 XOR";
"2 1 16986 24043 10928 XOR";
"2 1 10929 10928 10927 AND";
"2 1 10927 24043 24044 XOR";
"2 1 24107 24044 2041 XOR";
"2 1 2041 16988 23919 XOR";
"2 1 24171 24044 10926 XOR";
"2 1 16987 24044 10925 XOR";
"2 1 10926 10925 10924 AND";
"2 1 10924 24044 24045 XOR";
"2 1 24108 24045 2040 XOR";
"2 1 2040 16989 23920 XOR";
"2 1 24172 24045 10923 XOR";
"2 1 16988 24045 10922 XOR";
"2 1 10923 10922 10921 AND";
"2 1 10921 24045 24046 XOR";
"2 1 24109 24046 2039 XOR";
"2 1 2039 16990 23921 XOR";
"2 1 24173 24046 10920 XOR";
"2 1 16989 24046 10919 XOR";
"2 1 10920 10919 10918 AND";
"2 1 10918 24046 24047 XOR";
"2 1 24110 24047 2038 XOR";
"2 1 2038 16991 23922 XOR";
"2 1 24174 24047 10917 XOR";
"2 1 16990 24047 10916 XOR";
"2 1 10917 10916 10915 AND";
"2 1 10915 24047 24048 XOR";
"2 1 24111 24048 2037 XOR";
"2 1 2037 16992 23923 XOR";
"2 1 24175 24048 10914 XOR";
"2 1 16991 24048 10913 XOR";
"2 1 10914 10913 10912 AND";
"2 1 10912 24048 24049 XOR";
"2 1 24112 24049 2036 XOR";
"2 1 2036 16993 23924 XOR";
"2 1 24176 24049 10911 XOR";
"2 1 16992 24049 10910 XOR";
"2 1 10911 10910 10909 AND";
"2 1 10909 24049 24050 XOR";
"2 1 24113 24050 2035 XOR";
"2 1 2035 16994 23925 XOR";
"2 1 24177 24050 10908 XOR";
"2 1 16993 24050 10907 XOR";
"2 1 10908 10907 10906 AND";
"2 1 10906 24050 24051 XOR";
"2 1 24114 24051 2034 XOR";
"2 1 2034 16995 23926 XOR";
"2 1 24178 24051 10905 XOR";
"2 1 16994 24051 10904 XOR";
"2 1 10905 10904 10903 AND";
"2 1 10903 24051 24052 XOR";
"2 1 24115 24052 2033 XOR";
"2 1 2033 16996 23927 XOR";
"2 1 24179 24052 10902 XOR";
"2 1 16995 24052 10901 XOR";
"2 1 10902 10901 10900 AND";
"2 1 10900 24052 24053 XOR";
"2 1 24116 24053 2032 XOR";
"2 1 2032 16997 23928 XOR";
"2 1 24180 24053 10899 XOR";
"2 1 16996 24053 10898 XOR";
"2 1 10899 10898 10897 AND";
"2 1 10897 24053 24054 XOR";
"2 1 24117 24054 2031 XOR";
"2 1 2031 16998 23929 XOR";
"2 1 24181 24054 10896 XOR";
"2 1 16997 24054 10895 XOR";
"2 1 10896 10895 10894 AND";
"2 1 10894 24054 24055 XOR";
"2 1 24118 24055 2030 XOR";
"2 1 2030 16999 23930 XOR";
"2 1 24182 24055 10893 XOR";
"2 1 16998 24055 10892 XOR";
"2 1 10893 10892 10891 AND";
"2 1 10891 24055 24056 XOR";
"2 1 24119 24056 2029 XOR";
"2 1 2029 17000 23931 XOR";
"2 1 24183 24056 10890 XOR";
"2 1 16999 24056 10889 XOR";
"2 1 10890 10889 10888 AND";
"2 1 10888 24056 24057 XOR";
"2 1 24120 24057 2028 XOR";
"2 1 2028 17001 23932 XOR";
"2 1 24184 24057 10887 XOR";
"2 1 17000 24057 10886 XOR";
"2 1 10887 10886 10885 AND";
"2 1 10885 24057 24058 XOR";
"2 1 24121 24058 2027 XOR";
"2 1 2027 17002 23933 XOR";
"2 1 24185 24058 10884 XOR";
"2 1 17001 24058 10883 XOR";
"2 1 10884 10883 10882 AND";
"2 1 10882 24058 24059 XOR";
"2 1 24122 24059 2026 XOR";
"2 1 2026 17003 23934 XOR";
"2 1 24186 24059 10881 XOR";
"2 1 17002 24059 10880 XOR";
"2 1 10881 10880 10879 AND";
"2 1 10879 24059 24060 XOR";
"2 1 24123 24060 2025 XOR";
"2 1 2025 17004 23935 XOR";
"2 1 24187 24060 10878 XOR";
"2 1 17003 24060 10877 XOR";
"2 1 10878 10877 10876 AND";
"2 1 10876 24060 24061 XOR";
"2 1 24124 24061 2024 XOR";
"2 1 2024 17005 23936 XOR";
"2 1 24188 24061 10875 XOR";
"2 1 17004 24061 10874 XOR";
"2 1 10875 10874 10873 AND";
"2 1 10873 24061 24062 XOR";
"2 1 24125 24062 2023 XOR";
"2 1 2023 17006 23937 XOR";
"2 1 24189 24062 10872 XOR";
"2 1 17005 24062 10871 XOR";
"2 1 10872 10871 10870 AND";
"2 1 10870 24062 24063 XOR";
"2 1 24126 24063 2022 XOR";
"2 1 2022 17007 23938 XOR";
"2 1 24190 24063 10869 XOR";
"2 1 17006 24063 10868 XOR";
"2 1 10869 10868 10867 AND";
"2 1 10867 24063 24064 XOR";
"2 1 24127 24064 2021 XOR";
"2 1 2021 17008 23939 XOR";
"2 1 24191 24064 10866 XOR";
"2 1 17007 24064 10865 XOR";
"2 1 10866 10865 10864 AND";
"2 1 10864 24064 24065 XOR";
"2 1 24128 24065 2020 XOR";
"2 1 2020 17009 23940 XOR";
"2 1 24192 24065 10863 XOR";
"2 1 17008 24065 10862 XOR";
"2 1 10863 10862 10861 AND";
"2 1 10861 24065 24066 XOR";
"2 1 24129 24066 159 XOR";
"2 1 16664 4535 17548 AND";
"1 1 159 16663 INV";
"2 1 16852 16663 23941 XOR";
"2 1 2082 16663 23942 XOR";
"2 1 2081 16663 23943 XOR";
"2 1 2080 16663 23944 XOR";
"2 1 2079 16663 23945 XOR";
"2 1 2078 16663 23946 XOR";
"2 1 2077 16663 23947 XOR";
"2 1 2076 16663 23948 XOR";
"2 1 2075 16663 23949 XOR";
"2 1 2074 16663 23950 XOR";
"2 1 2073 16663 23951 XOR";
"2 1 2072 16663 23952 XOR";
"2 1 2071 16663 23953 XOR";
"2 1 2070 16663 23954 XOR";
"2 1 2069 16663 23955 XOR";
"2 1 2068 16663 23956 XOR";
"2 1 2067 16663 23957 XOR";
"2 1 2066 16663 23958 XOR";
"2 1 2065 16663 23959 XOR";
"2 1 2064 16663 23960 XOR";
"2 1 2063 16663 23961 XOR";
"2 1 2062 16663 23962 XOR";
"2 1 2061 16663 23963 XOR";
"2 1 2060 16663 23964 XOR";
"2 1 2059 16663 23965 XOR";
"2 1 2058 16663 23966 XOR";
"2 1 2057 16663 23967 XOR";
"2 1 2056 16663 23968 XOR";
"2 1 2055 16663 23969 XOR";
"2 1 2054 16663 23970 XOR";
"2 1 2053 16663 23971 XOR";
"2 1 2052 16663 23972 XOR";
"2 1 2051 16663 23973 XOR";
"2 1 2050 16663 23974 XOR";
"2 1 2049 16663 23975 XOR";
"2 1 2048 16663 23976 XOR";
"2 1 2047 16663 23977 XOR";
"2 1 2046 16663 23978 XOR";
"2 1 2045 16663 23979 XOR";
"2 1 2044 16663 23980 XOR";
"2 1 2043 16663 23981 XOR";
"2 1 2042 16663 23982 XOR";
"2 1 2041 16663 23983 XOR";
"2 1 2040 16663 23984 XOR";
"2 1 2039 16663 23985 XOR";
"2 1 2038 16663 23986 XOR";
"2 1 2037 16663 23987 XOR";
"2 1 2036 16663 23988 XOR";
"2 1 2035 16663 23989 XOR";
"2 1 2034 16663 23990 XOR";
"2 1 2033 16663 23991 XOR";
"2 1 2032 16663 23992 XOR";
"2 1 2031 16663 23993 XOR";
"2 1 2030 16663 23994 XOR";
"2 1 2029 16663 23995 XOR";
"2 1 2028 16663 23996 XOR";
"2 1 2027 16663 23997 XOR";
"2 1 2026 16663 23998 XOR";
"2 1 2025 16663 23999 XOR";
"2 1 2024 16663 24000 XOR";
"2 1 2023 16663 24001 XOR";
"2 1 2022 16663 24002 XOR";
"2 1 2021 16663 24003 XOR";
"2 1 23941 16946 23815 AND";
"2 1 23878 23815 2144 XOR";
"2 1 2144 16948 23690 XOR";
"2 1 23942 23815 10860 XOR";
"2 1 16947 23815 10859 XOR";
"2 1 10860 10859 10858 AND";
"2 1 10858 23815 23816 XOR";
"2 1 23879 23816 2143 XOR";
"2 1 2143 16949 23691 XOR";
"2 1 23943 23816 10857 XOR";
"2 1 16948 23816 10856 XOR";
"2 1 10857 10856 10855 AND";
"2 1 10855 23816 23817 XOR";
"2 1 23880 23817 2142 XOR";
"2 1 2142 16950 23692 XOR";
"2 1 23944 23817 10854 XOR";
"2 1 16949 23817 10853 XOR";
"2 1 10854 10853 10852 AND";
"2 1 10852 23817 23818 XOR";
"2 1 23881 23818 2141 XOR";
"2 1 2141 16951 23693 XOR";
"2 1 23945 23818 10851 XOR";
"2 1 16950 23818 10850 XOR";
"2 1 10851 10850 10849 AND";
"2 1 10849 23818 23819 XOR";
"2 1 23882 23819 2140 XOR";
"2 1 2140 16952 23694 XOR";
"2 1 23946 23819 10848 XOR";
"2 1 16951 23819 10847 XOR";
"2 1 10848 10847 10846 AND";
"2 1 10846 23819 23820 XOR";
"2 1 23883 23820 2139 XOR";
"2 1 2139 16953 23695 XOR";
"2 1 23947 23820 10845 XOR";
"2 1 16952 23820 10844 XOR";
"2 1 10845 10844 10843 AND";
"2 1 10843 23820 23821 XOR";
"2 1 23884 23821 2138 XOR";
"2 1 2138 16954 23696 XOR";
"2 1 23948 23821 10842 XOR";
"2 1 16953 23821 10841 XOR";
"2 1 10842 10841 10840 AND";
"2 1 10840 23821 23822 XOR";
"2 1 23885 23822 2137 XOR";
"2 1 2137 16955 23697 XOR";
"2 1 23949 23822 10839 XOR";
"2 1 16954 23822 10838 XOR";
"2 1 10839 10838 10837 AND";
"2 1 10837 23822 23823 XOR";
"2 1 23886 23823 2136 XOR";
"2 1 2136 16956 23698 XOR";
"2 1 23950 23823 10836 XOR";
"2 1 16955 23823 10835 XOR";
"2 1 10836 10835 10834 AND";
"2 1 10834 23823 23824 XOR";
"2 1 23887 23824 2135 XOR";
"2 1 2135 16957 23699 XOR";
"2 1 23951 23824 10833 XOR";
"2 1 16956 23824 10832 XOR";
"2 1 10833 10832 10831 AND";
"2 1 10831 23824 23825 XOR";
"2 1 23888 23825 2134 XOR";
"2 1 2134 16958 23700 XOR";
"2 1 23952 23825 10830 XOR";
"2 1 16957 23825 10829 XOR";
"2 1 10830 10829 10828 AND";
"2 1 10828 23825 23826 XOR";
"2 1 23889 23826 2133 XOR";
"2 1 2133 16959 23701 XOR";
"2 1 23953 23826 10827 XOR";
"2 1 16958 23826 10826 XOR";
"2 1 10827 10826 10825 AND";
"2 1 10825 23826 23827 XOR";
"2 1 23890 23827 2132 XOR";
"2 1 2132 16960 23702 XOR";
"2 1 23954 23827 10824 XOR";
"2 1 16959 23827 10823 XOR";
"2 1 10824 10823 10822 AND";
"2 1 10822 23827 23828 XOR";
"2 1 23891 23828 2131 XOR";
"2 1 2131 16961 23703 XOR";
"2 1 23955 23828 10821 XOR";
"2 1 16960 23828 10820 XOR";
"2 1 10821 10820 10819 AND";
"2 1 10819 23828 23829 XOR";
"2 1 23892 23829 2130 XOR";
"2 1 2130 16962 23704 XOR";
"2 1 23956 23829 10818 XOR";
"2 1 16961 23829 10817 XOR";
"2 1 10818 10817 10816 AND";
"2 1 10816 23829 23830 XOR";
"2 1 23893 23830 2129 XOR";
"2 1 2129 16963 23705 XOR";
"2 1 23957 23830 10815 XOR";
"2 1 16962 23830 10814 XOR";
"2 1 10815 10814 10813 AND";
"2 1 10813 23830 23831 XOR";
"2 1 23894 23831 2128 XOR";
"2 1 2128 16964 23706 XOR";
"2 1 23958 23831 10812 XOR";
"2 1 16963 23831 10811 XOR";
"2 1 10812 10811 10810 AND";
"2 1 10810 23831 23832 XOR";
"2 1 23895 23832 2127 XOR";
"2 1 2127 16965 23707 XOR";
"2 1 23959 23832 10809 XOR";
"2 1 16964 23832 10808 XOR";
"2 1 10809 10808 10807 AND";
"2 1 10807 23832 23833 XOR";
"2 1 23896 23833 2126 XOR";
"2 1 2126 16966 23708 XOR";
"2 1 23960 23833 10806 XOR";
"2 1 16965 23833 10805 XOR";
"2 1 10806 10805 10804 AND";
"2 1 10804 23833 23834 XOR";
"2 1 23897 23834 2125 XOR";
"2 1 2125 16967 23709 XOR";
"2 1 23961 23834 10803 XOR";
"2 1 16966 23834 10802 XOR";
"2 1 10803 10802 10801 AND";
"2 1 10801 23834 23835 XOR";
"2 1 23898 23835 2124 XOR";
"2 1 2124 16968 23710 XOR";
"2 1 23962 23835 10800 XOR";
"2 1 16967 23835 10799 XOR";
"2 1 10800 10799 10798 AND";
"2 1 10798 23835 23836 XOR";
"2 1 23899 23836 2123 XOR";
"2 1 2123 16969 23711 XOR";
"2 1 23963 23836 10797 XOR";
"2 1 16968 23836 10796 XOR";
"2 1 10797 10796 10795 AND";
"2 1 10795 23836 23837 XOR";
"2 1 23900 23837 2122 XOR";
"2 1 2122 16970 23712 XOR";
"2 1 23964 23837 10794 XOR";
"2 1 16969 23837 10793 XOR";
"2 1 10794 10793 10792 AND";
"2 1 10792 23837 23838 XOR";
"2 1 23901 23838 2121 XOR";
"2 1 2121 16971 23713 XOR";
"2 1 23965 23838 10791 XOR";
"2 1 16970 23838 10790 XOR";
"2 1 10791 10790 10789 AND";
"2 1 10789 23838 23839 XOR";
"2 1 23902 23839 2120 XOR";
"2 1 2120 16972 23714 XOR";
"2 1 23966 23839 10788 XOR";
"2 1 16971 23839 10787 XOR";
"2 1 10788 10787 10786 AND";
"2 1 10786 23839 23840 XOR";
"2 1 23903 23840 2119 XOR";
"2 1 2119 16973 23715 XOR";
"2 1 23967 23840 10785 XOR";
"2 1 16972 23840 10784 XOR";
"2 1 10785 10784 10783 AND";
"2 1 10783 23840 23841 XOR";
"2 1 23904 23841 2118 XOR";
"2 1 2118 16974 23716 XOR";
"2 1 23968 23841 10782 XOR";
"2 1 16973 23841 10781 XOR";
"2 1 10782 10781 10780 AND";
"2 1 10780 23841 23842 XOR";
"2 1 23905 23842 2117 XOR";
"2 1 2117 16975 23717 XOR";
"2 1 23969 23842 10779 XOR";
"2 1 16974 23842 10778 XOR";
"2 1 10779 10778 10777 AND";
"2 1 10777 23842 23843 XOR";
"2 1 23906 23843 2116 XOR";
"2 1 2116 16976 23718 XOR";
"2 1 23970 23843 10776 XOR";
"2 1 16975 23843 10775 XOR";
"2 1 10776 10775 10774 AND";
"2 1 10774 23843 23844 XOR";
"2 1 23907 23844 2115 XOR";
"2 1 2115 16977 23719 XOR";
"2 1 23971 23844 10773 XOR";
"2 1 16976 23844 10772 XOR";
"2 1 10773 10772 10771 AND";
"2 1 10771 23844 23845 XOR";
"2 1 23908 23845 2114 XOR";
"2 1 2114 16978 23720 XOR";
"2 1 23972 23845 10770 XOR";
"2 1 16977 23845 10769 XOR";
"2 1 10770 10769 10768 AND";
"2 1 10768 23845 23846 XOR";
"2 1 23909 23846 2113 XOR";
"2 1 2113 16979 23721 XOR";
"2 1 23973 23846 10767 XOR";
"2 1 16978 23846 10766 XOR";
"2 1 10767 10766 10765 AND";
"2 1 10765 23846 23847 XOR";
"2 1 23910 23847 2112 XOR";
"2 1 2112 16980 23722 XOR";
"2 1 23974 23847 10764 XOR";
"2 1 16979 23847 10763 XOR";
"2 1 10764 10763 10762 AND";
"2 1 10762 23847 23848 XOR";
"2 1 23911 23848 2111 XOR";
"2 1 2111 16981 23723 XOR";
"2 1 23975 23848 10761 XOR";
"2 1 16980 23848 10760 XOR";
"2 1 10761 10760 10759 AND";
"2 1 10759 23848 23849 XOR";
"2 1 23912 23849 2110 XOR";
"2 1 2110 16982 23724 XOR";
"2 1 23976 23849 10758 XOR";
"2 1 16981 23849 10757 XOR";
"2 1 10758 10757 10756 AND";
"2 1 10756 23849 23850 XOR";
"2 1 23913 23850 2109 XOR";
"2 1 2109 16983 23725 XOR";
"2 1 23977 23850 10755 XOR";
"2 1 16982 23850 10754 XOR";
"2 1 10755 10754 10753 AND";
"2 1 10753 23850 23851 XOR";
"2 1 23914 23851 2108 XOR";
"2 1 2108 16984 23726 XOR";
"2 1 23978 23851 10752 XOR";
"2 1 16983 23851 10751 XOR";
"2 1 10752 10751 10750 AND";
"2 1 10750 23851 23852 XOR";
"2 1 23915 23852 2107 XOR";
"2 1 2107 16985 23727 XOR";
"2 1 23979 23852 10749 XOR";
"2 1 16984 23852 10748 XOR";
"2 1 10749 10748 10747 AND";
"2 1 10747 23852 23853 XOR";
"2 1 23916 23853 2106 XOR";
"2 1 2106 16986 23728 XOR";
"2 1 23980 23853 10746 XOR";
"2 1 16985 23853 10745 XOR";
"2 1 10746 10745 10744 AND";
"2 1 10744 23853 23854 XOR";
"2 1 23917 23854 2105 XOR";
"2 1 2105 16987 23729 XOR";
"2 1 23981 23854 10743 XOR";
"2 1 16986 23854 10742 XOR";
"2 1 10743 10742 10741 AND";
"2 1 10741 23854 23855 XOR";
"2 1 23918 23855 2104 XOR";
"2 1 2104 16988 23730 XOR";
"2 1 23982 23855 10740 XOR";
"2 1 16987 23855 10739 XOR";
"2 1 10740 10739 10738 AND";
"2 1 10738 23855 23856 XOR";
"2 1 23919 23856 2103 XOR";
"2 1 2103 16989 23731 XOR";
"2 1 23983 23856 10737 XOR";
"2 1 16988 23856 10736 XOR";
"2 1 10737 10736 10735 AND";
"2 1 10735 23856 23857 XOR";
"2 1 23920 23857 2102 XOR";
"2 1 2102 16990 23732 XOR";
"2 1 23984 23857 10734 XOR";
"2 1 16989 23857 10733 XOR";
"2 1 10734 10733 10732 AND";
"2 1 10732 23857 23858 XOR";
"2 1 23921 23858 2101 XOR";
"2 1 2101 16991 23733 XOR";
"2 1 23985 23858 10731 XOR";
"2 1 16990 23858 10730 XOR";
"2 1 10731 10730 10729 AND";
"2 1 10729 23858 23859 XOR";
"2 1 23922 23859 2100 XOR";
"2 1 2100 16992 23734 XOR";
"2 1 23986 23859 10728 XOR";
"2 1 16991 23859 10727 XOR";
"2 1 10728 10727 10726 AND";
"2 1 10726 23859 23860 XOR";
"2 1 23923 23860 2099 XOR";
"2 1 2099 16993 23735 XOR";
"2 1 23987 23860 10725 XOR";
"2 1 16992 23860 10724 XOR";
"2 1 10725 10724 10723 AND";
"2 1 10723 23860 23861 XOR";
"2 1 23924 23861 2098 XOR";
"2 1 2098 16994 23736 XOR";
"2 1 23988 23861 10722 XOR";
"2 1 16993 23861 10721 XOR";
"2 1 10722 10721 10720 AND";
"2 1 10720 23861 23862 XOR";
"2 1 23925 23862 2097 XOR";
"2 1 2097 16995 23737 XOR";
"2 1 23989 23862 10719 XOR";
"2 1 16994 23862 10718 XOR";
"2 1 10719 10718 10717 AND";
"2 1 10717 23862 23863 XOR";
"2 1 23926 23863 2096 XOR";
"2 1 2096 16996 23738 XOR";
"2 1 23990 23863 10716 XOR";
"2 1 16995 23863 10715 XOR";
"2 1 10716 10715 10714 AND";
"2 1 10714 23863 23864 XOR";
"2 1 23927 23864 2095 XOR";
"2 1 2095 16997 23739 XOR";
"2 1 23991 23864 10713 XOR";
"2 1 16996 23864 10712 XOR";
"2 1 10713 10712 10711 AND";
"2 1 10711 23864 23865 XOR";
"2 1 23928 23865 2094 XOR";
"2 1 2094 16998 23740 XOR";
"2 1 23992 23865 10710 XOR";
"2 1 16997 23865 10709 XOR";
"2 1 10710 10709 10708 AND";
"2 1 10708 23865 23866 XOR";
"2 1 23929 23866 2093 XOR";
"2 1 2093 16999 23741 XOR";
"2 1 23993 23866 10707 XOR";
"2 1 16998 23866 10706 XOR";
"2 1 10707 10706 10705 AND";
"2 1 10705 23866 23867 XOR";
"2 1 23930 23867 2092 XOR";
"2 1 2092 17000 23742 XOR";
"2 1 23994 23867 10704 XOR";
"2 1 16999 23867 10703 XOR";
"2 1 10704 10703 10702 AND";
"2 1 10702 23867 23868 XOR";
"2 1 23931 23868 2091 XOR";
"2 1 2091 17001 23743 XOR";
"2 1 23995 23868 10701 XOR";
"2 1 17000 23868 10700 XOR";
"2 1 10701 10700 10699 AND";
"2 1 10699 23868 23869 XOR";
"2 1 23932 23869 2090 XOR";
"2 1 2090 17002 23744 XOR";
"2 1 23996 23869 10698 XOR";
"2 1 17001 23869 10697 XOR";
"2 1 10698 10697 10696 AND";
"2 1 10696 23869 23870 XOR";
"2 1 23933 23870 2089 XOR";
"2 1 2089 17003 23745 XOR";
"2 1 23997 23870 10695 XOR";
"2 1 17002 23870 10694 XOR";
"2 1 10695 10694 10693 AND";
"2 1 10693 23870 23871 XOR";
"2 1 23934 23871 2088 XOR";
"2 1 2088 17004 23746 XOR";
"2 1 23998 23871 10692 XOR";
"2 1 17003 23871 10691 XOR";
"2 1 10692 10691 10690 AND";
"2 1 10690 23871 23872 XOR";
"2 1 23935 23872 2087 XOR";
"2 1 2087 17005 23747 XOR";
"2 1 23999 23872 10689 XOR";
"2 1 17004 23872 10688 XOR";
"2 1 10689 10688 10687 AND";
"2 1 10687 23872 23873 XOR";
"2 1 23936 23873 2086 XOR";
"2 1 2086 17006 23748 XOR";
"2 1 24000 23873 10686 XOR";
"2 1 17005 23873 10685 XOR";
"2 1 10686 10685 10684 AND";
"2 1 10684 23873 23874 XOR";
"2 1 23937 23874 2085 XOR";
"2 1 2085 17007 23749 XOR";
"2 1 24001 23874 10683 XOR";
"2 1 17006 23874 10682 XOR";
"2 1 10683 10682 10681 AND";
"2 1 10681 23874 23875 XOR";
"2 1 23938 23875 2084 XOR";
"2 1 2084 17008 23750 XOR";
"2 1 24002 23875 10680 XOR";
"2 1 17007 23875 10679 XOR";
"2 1 10680 10679 10678 AND";
"2 1 10678 23875 23876 XOR";
"2 1 23939 23876 2083 XOR";
"2 1 2083 17009 23751 XOR";
"2 1 24003 23876 10677 XOR";
"2 1 17008 23876 10676 XOR";
"2 1 10677 10676 10675 AND";
"2 1 10675 23876 23877 XOR";
"2 1 23940 23877 160 XOR";
"1 1 160 16662 INV";
"2 1 2096 16662 23802 XOR";
"2 1 2095 16662 23803 XOR";
"2 1 2094 16662 23804 XOR";
"2 1 2093 16662 23805 XOR";
"2 1 2092 16662 23806 XOR";
"2 1 2091 16662 23807 XOR";
"2 1 2090 16662 23808 XOR";
"2 1 2089 16662 23809 XOR";
"2 1 2088 16662 23810 XOR";
"2 1 2087 16662 23811 XOR";
"2 1 2086 16662 23812 XOR";
"2 1 2085 16662 23813 XOR";
"2 1 2084 16662 23814 XOR";
"2 1 2145 16662 23753 XOR";
"2 1 2139 16662 23759 XOR";
"2 1 2133 16662 23765 XOR";
"2 1 2127 16662 23771 XOR";
"2 1 2121 16662 23777 XOR";
"2 1 2115 16662 23783 XOR";
"2 1 2109 16662 23789 XOR";
"2 1 2103 16662 23795 XOR";
"2 1 16851 16662 23752 XOR";
"2 1 23752 16946 23626 AND";
"2 1 23689 23626 2207 XOR";
"2 1 23753 23626 10674 XOR";
"2 1 16947 23626 10673 XOR";
"2 1 10674 10673 10672 AND";
"2 1 10672 23626 23627 XOR";
"2 1 23690 23627 2206 XOR";
"2 1 16948 23627 10670 XOR";
"2 1 2207 16948 23501 XOR";
"2 1 2206 16949 23502 XOR";
"2 1 2141 16662 23757 XOR";
"2 1 2142 16662 23756 XOR";
"2 1 2144 16662 23754 XOR";
"2 1 23754 23627 10671 XOR";
"2 1 10671 10670 10669 AND";
"2 1 10669 23627 23628 XOR";
"2 1 23691 23628 2205 XOR";
"2 1 16949 23628 10667 XOR";
"2 1 2205 16950 23503 XOR";
"2 1 2143 16662 23755 XOR";
"2 1 23755 23628 10668 XOR";
"2 1 10668 10667 10666 AND";
"2 1 10666 23628 23629 XOR";
"2 1 23692 23629 2204 XOR";
"2 1 23756 23629 10665 XOR";
"2 1 16950 23629 10664 XOR";
"2 1 10665 10664 10663 AND";
"2 1 10663 23629 23630 XOR";
"2 1 23693 23630 2203 XOR";
"2 1 23757 23630 10662 XOR";
"2 1 16951 23630 10661 XOR";
"2 1 10662 10661 10660 AND";
"2 1 10660 23630 23631 XOR";
"2 1 23694 23631 2202 XOR";
"2 1 16952 23631 10658 XOR";
"2 1 2204 16951 23504 XOR";
"2 1 2203 16952 23505 XOR";
"2 1 2202 16953 23506 XOR";
"2 1 2140 16662 23758 XOR";
"2 1 23758 23631 10659 XOR";
"2 1 10659 10658 10657 AND";
"2 1 10657 23631 23632 XOR";
"2 1 23695 23632 2201 XOR";
"2 1 23759 23632 10656 XOR";
"2 1 16953 23632 10655 XOR";
"2 1 10656 10655 10654 AND";
"2 1 10654 23632 23633 XOR";
"2 1 23696 23633 2200 XOR";
"2 1 16954 23633 10652 XOR";
"2 1 2201 16954 23507 XOR";
"2 1 2200 16955 23508 XOR";
"2 1 2135 16662 23763 XOR";
"2 1 2136 16662 23762 XOR";
"2 1 2138 16662 23760 XOR";
"2 1 23760 23633 10653 XOR";
"2 1 10653 10652 10651 AND";
"2 1 10651 23633 23634 XOR";
"2 1 23697 23634 2199 XOR";
"2 1 16955 23634 10649 XOR";
"2 1 2199 16956 23509 XOR";
"2 1 2137 16662 23761 XOR";
"2 1 23761 23634 10650 XOR";
"2 1 10650 10649 10648 AND";
"2 1 10648 23634 23635 XOR";
"2 1 23698 23635 2198 XOR";
"2 1 23762 23635 10647 XOR";
"2 1 16956 23635 10646 XOR";
"2 1 10647 10646 10645 AND";
"2 1 10645 23635 23636 XOR";
"2 1 23699 23636 2197 XOR";
"2 1 23763 23636 10644 XOR";
"2 1 16957 23636 10643 XOR";
"2 1 10644 10643 10642 AND";
"2 1 10642 23636 23637 XOR";
"2 1 23700 23637 2196 XOR";
"2 1 16958 23637 10640 XOR";
"2 1 2198 16957 23510 XOR";
"2 1 2197 16958 23511 XOR";
"2 1 2196 16959 23512 XOR";
"2 1 2134 16662 23764 XOR";
"2 1 23764 23637 10641 XOR";
"2 1 10641 10640 10639 AND";
"2 1 10639 23637 23638 XOR";
"2 1 23701 23638 2195 XOR";
"2 1 23765 23638 10638 XOR";
"2 1 16959 23638 10637 XOR";
"2 1 10638 10637 10636 AND";
"2 1 10636 23638 23639 XOR";
"2 1 23702 23639 2194 XOR";
"2 1 16960 23639 10634 XOR";
"2 1 2195 16960 23513 XOR";
"2 1 2194 16961 23514 XOR";
"2 1 2129 16662 23769 XOR";
"2 1 2130 16662 23768 XOR";
"2 1 2132 16662 23766 XOR";
"2 1 23766 23639 10635 XOR";
"2 1 10635 10634 10633 AND";
"2 1 10633 23639 23640 XOR";
"2 1 23703 23640 2193 XOR";
"2 1 16961 23640 10631 XOR";
"2 1 2193 16962 23515 XOR";
"2 1 2131 16662 23767 XOR";
"2 1 23767 23640 10632 XOR";
"2 1 10632 10631 10630 AND";
"2 1 10630 23640 23641 XOR";
"2 1 23704 23641 2192 XOR";
"2 1 23768 23641 10629 XOR";
"2 1 16962 23641 10628 XOR";
"2 1 10629 10628 10627 AND";
"2 1 10627 23641 23642 XOR";
"2 1 23705 23642 2191 XOR";
"2 1 23769 23642 10626 XOR";
"2 1 16963 23642 10625 XOR";
"2 1 10626 10625 10624 AND";
"2 1 10624 23642 23643 XOR";
"2 1 23706 23643 2190 XOR";
"2 1 16964 23643 10622 XOR";
"2 1 2192 16963 23516 XOR";
"2 1 2191 16964 23517 XOR";
"2 1 2190 16965 23518 XOR";
"2 1 2128 16662 23770 XOR";
"2 1 23770 23643 10623 XOR";
"2 1 10623 10622 10621 AND";
"2 1 10621 23643 23644 XOR";
"2 1 23707 23644 2189 XOR";
"2 1 23771 23644 10620 XOR";
"2 1 16965 23644 10619 XOR";
"2 1 10620 10619 10618 AND";
"2 1 10618 23644 23645 XOR";
"2 1 23708 23645 2188 XOR";
"2 1 16966 23645 10616 XOR";
"2 1 2189 16966 23519 XOR";
"2 1 2188 16967 23520 XOR";
"2 1 2123 16662 23775 XOR";
"2 1 2124 16662 23774 XOR";
"2 1 2126 16662 23772 XOR";
"2 1 23772 23645 10617 XOR";
"2 1 10617 10616 10615 AND";
"2 1 10615 23645 23646 XOR";
"2 1 23709 23646 2187 XOR";
"2 1 16967 23646 10613 XOR";
"2 1 2187 16968 23521 XOR";
"2 1 2125 16662 23773 XOR";
"2 1 23773 23646 10614 XOR";
"2 1 10614 10613 10612 AND";
"2 1 10612 23646 23647 XOR";
"2 1 23710 23647 2186 XOR";
"2 1 23774 23647 10611 XOR";
"2 1 16968 23647 10610 XOR";
"2 1 10611 10610 10609 AND";
"2 1 10609 23647 23648 XOR";
"2 1 23711 23648 2185 XOR";
"2 1 23775 23648 10608 XOR";
"2 1 16969 23648 10607 XOR";
"2 1 10608 10607 10606 AND";
"2 1 10606 23648 23649 XOR";
"2 1 23712 23649 2184 XOR";
"2 1 16970 23649 10604 XOR";
"2 1 2186 16969 23522 XOR";
"2 1 2185 16970 23523 XOR";
"2 1 2184 16971 23524 XOR";
"2 1 2122 16662 23776 XOR";
"2 1 23776 23649 10605 XOR";
"2 1 10605 10604 10603 AND";
"2 1 10603 23649 23650 XOR";
"2 1 23713 23650 2183 XOR";
"2 1 23777 23650 10602 XOR";
"2 1 16971 23650 10601 XOR";
"2 1 10602 10601 10600 AND";
"2 1 10600 23650 23651 XOR";
"2 1 23714 23651 2182 XOR";
"2 1 16972 23651 10598 XOR";
"2 1 2183 16972 23525 XOR";
"2 1 2182 16973 23526 XOR";
"2 1 2117 16662 23781 XOR";
"2 1 2118 16662 23780 XOR";
"2 1 2120 16662 23778 XOR";
"2 1 23778 23651 10599 XOR";
"2 1 10599 10598 10597 AND";
"2 1 10597 23651 23652 XOR";
"2 1 23715 23652 2181 XOR";
"2 1 16973 23652 10595 XOR";
"2 1 2181 16974 23527 XOR";
"2 1 2119 16662 23779 XOR";
"2 1 23779 23652 10596 XOR";
"2 1 10596 10595 10594 AND";
"2 1 10594 23652 23653 XOR";
"2 1 23716 23653 2180 XOR";
"2 1 23780 23653 10593 XOR";
"2 1 16974 23653 10592 XOR";
"2 1 10593 10592 10591 AND";
"2 1 10591 23653 23654 XOR";
"2 1 23717 23654 2179 XOR";
"2 1 23781 23654 10590 XOR";
"2 1 16975 23654 10589 XOR";
"2 1 10590 10589 10588 AND";
"2 1 10588 23654 23655 XOR";
"2 1 23718 23655 2178 XOR";
"2 1 16976 23655 10586 XOR";
"2 1 2180 16975 23528 XOR";
"2 1 2179 16976 23529 XOR";
"2 1 2178 16977 23530 XOR";
"2 1 2116 16662 23782 XOR";
"2 1 23782 23655 10587 XOR";
"2 1 10587 10586 10585 AND";
"2 1 10585 23655 23656 XOR";
"2 1 23719 23656 2177 XOR";
"2 1 23783 23656 10584 XOR";
"2 1 16977 23656 10583 XOR";
"2 1 10584 10583 10582 AND";
"2 1 10582 23656 23657 XOR";
"2 1 23720 23657 2176 XOR";
"2 1 16978 23657 10580 XOR";
"2 1 2177 16978 23531 XOR";
"2 1 2176 16979 23532 XOR";
"2 1 2111 16662 23787 XOR";
"2 1 2112 16662 23786 XOR";
"2 1 2114 16662 23784 XOR";
"2 1 23784 23657 10581 XOR";
"2 1 10581 10580 10579 AND";
"2 1 10579 23657 23658 XOR";
"2 1 16979 23658 10577 XOR";
"2 1 23721 23658 2175 XOR";
"2 1 2175 16980 23533 XOR";
"2 1 2113 16662 23785 XOR";
"2 1 23785 23658 10578 XOR";
"2 1 10578 10577 10576 AND";
"2 1 10576 23658 23659 XOR";
"2 1 16980 23659 10574 XOR";
"2 1 23722 23659 2174 XOR";
"2 1 2174 16981 23534 XOR";
"2 1 23786 23659 10575 XOR";
"2 1 10575 10574 10573 AND";
"2 1 10573 23659 23660 XOR";
"2 1 23723 23660 2173 XOR";
"2 1 16981 23660 10571 XOR";
"2 1 2173 16982 23535 XOR";
"2 1 23787 23660 10572 XOR";
"2 1 10572 10571 10570 AND";
"2 1 10570 23660 23661 XOR";
"2 1 16982 23661 10568 XOR";
"2 1 23724 23661 2172 XOR";
"2 1 2172 16983 23536 XOR";
"2 1 2110 16662 23788 XOR";
"2 1 23788 23661 10569 XOR";
"2 1 10569 10568 10567 AND";
"2 1 10567 23661 23662 XOR";
"2 1 16983 23662 10565 XOR";
"2 1 23725 23662 2171 XOR";
"2 1 2171 16984 23537 XOR";
"2 1 23789 23662 10566 XOR";
"2 1 10566 10565 10564 AND";
"2 1 10564 23662 23663 XOR";
"2 1 16984 23663 10562 XOR";
"2 1 23726 23663 2170 XOR";
"2 1 2170 16985 23538 XOR";
"2 1 2105 16662 23793 XOR";
"2 1 2106 16662 23792 XOR";
"2 1 2108 16662 23790 XOR";
"2 1 23790 23663 10563 XOR";
"2 1 10563 10562 10561 AND";
"2 1 10561 23663 23664 XOR";
"2 1 23727 23664 2169 XOR";
"2 1 2169 16986 23539 XOR";
"2 1 16985 23664 10559 XOR";
"2 1 2107 16662 23791 XOR";
"2 1 23791 23664 10560 XOR";
"2 1 10560 10559 10558 AND";
"2 1 10558 23664 23665 XOR";
"2 1 23728 23665 2168 XOR";
"2 1 16986 23665 10556 XOR";
"2 1 2168 16987 23540 XOR";
"2 1 23792 23665 10557 XOR";
"2 1 10557 10556 10555 AND";
"2 1 10555 23665 23666 XOR";
"2 1 23793 23666 10554 XOR";
"2 1 16987 23666 10553 XOR";
"2 1 23729 23666 2167 XOR";
"2 1 2167 16988 23541 XOR";
"2 1 10554 10553 10552 AND";
"2 1 10552 23666 23667 XOR";
"2 1 23730 23667 2166 XOR";
"2 1 2166 16989 23542 XOR";
"2 1 16988 23667 10550 XOR";
"2 1 2104 16662 23794 XOR";
"2 1 23794 23667 10551 XOR";
"2 1 10551 10550 10549 AND";
"2 1 10549 23667 23668 XOR";
"2 1 23795 23668 10548 XOR";
"2 1 23731 23668 2165 XOR";
"2 1 16989 23668 10547 XOR";
"2 1 10548 10547 10546 AND";
"2 1 10546 23668 23669 XOR";
"2 1 16990 23669 10544 XOR";
"2 1 23732 23669 2164 XOR";
"2 1 2165 16990 23543 XOR";
"2 1 2164 16991 23544 XOR";
"2 1 2099 16662 23799 XOR";
"2 1 2100 16662 23798 XOR";
"2 1 2102 16662 23796 XOR";
"2 1 23796 23669 10545 XOR";
"2 1 10545 10544 10543 AND";
"2 1 10543 23669 23670 XOR";
"2 1 23733 23670 2163 XOR";
"2 1 2163 16992 23545 XOR";
"2 1 16991 23670 10541 XOR";
"2 1 2101 16662 23797 XOR";
"2 1 23797 23670 10542 XOR";
"2 1 10542 10541 10540 AND";
"2 1 10540 23670 23671 XOR";
"2 1 23734 23671 2162 XOR";
"2 1 2162 16993 23546 XOR";
"2 1 16992 23671 10538 XOR";
"2 1 23798 23671 10539 XOR";
"2 1 10539 10538 10537 AND";
"2 1 10537 23671 23672 XOR";
"2 1 23799 23672 10536 XOR";
"2 1 16993 23672 10535 XOR";
"2 1 10536 10535 10534 AND";
"2 1 10534 23672 23673 XOR";
"2 1 23736 23673 2160 XOR";
"2 1 23735 23672 2161 XOR";
"2 1 16994 23673 10532 XOR";
"2 1 2161 16994 23547 XOR";
"2 1 2160 16995 23548 XOR";
"2 1 2098 16662 23800 XOR";
"2 1 23800 23673 10533 XOR";
"2 1 10533 10532 10531 AND";
"2 1 10531 23673 23674 XOR";
"2 1 23737 23674 2159 XOR";
"2 1 2159 16996 23549 XOR";
"2 1 16995 23674 10529 XOR";
"2 1 16662 4535 17546 AND";
"2 1 2097 16662 23801 XOR";
"2 1 23801 23674 10530 XOR";
"2 1 10530 10529 10528 AND";
"2 1 10528 23674 23675 XOR";
"2 1 23802 23675 10527 XOR";
"2 1 23738 23675 2158 XOR";
"2 1 2158 16997 23550 XOR";
"2 1 16996 23675 10526 XOR";
"2 1 10527 10526 10525 AND";
"2 1 10525 23675 23676 XOR";
"2 1 16997 23676 10523 XOR";
"2 1 23803 23676 10524 XOR";
"2 1 10524 10523 10522 AND";
"2 1 10522 23676 23677 XOR";
"2 1 16998 23677 10520 XOR";
"2 1 23740 23677 2156 XOR";
"2 1 2156 16999 23552 XOR";
"2 1 23804 23677 10521 XOR";
"2 1 10521 10520 10519 AND";
"2 1 10519 23677 23678 XOR";
"2 1 23805 23678 10518 XOR";
"2 1 16999 23678 10517 XOR";
"2 1 10518 10517 10516 AND";
"2 1 23741 23678 2155 XOR";
"2 1 10516 23678 23679 XOR";
"2 1 23742 23679 2154 XOR";
"2 1 23806 23679 10515 XOR";
"2 1 2154 17001 23554 XOR";
"2 1 2155 17000 23553 XOR";
"2 1 23739 23676 2157 XOR";
"2 1 2157 16998 23551 XOR";
"2 1 17000 23679 10514 XOR";
"2 1 10515 10514 10513 AND";
"2 1 10513 23679 23680 XOR";
"2 1 23743 23680 2153 XOR";
"2 1 23807 23680 10512 XOR";
"2 1 17001 23680 10511 XOR";
"2 1 10512 10511 10510 AND";
"2 1 10510 23680 23681 XOR";
"2 1 2153 17002 23555 XOR";
"2 1 23744 23681 2152 XOR";
"2 1 2152 17003 23556 XOR";
"2 1 17002 23681 10508 XOR";
"2 1 23808 23681 10509 XOR";
"2 1 10509 10508 10507 AND";
"2 1 10507 23681 23682 XOR";
"2 1 23809 23682 10506 XOR";
"2 1 17003 23682 10505 XOR";
"2 1 10506 10505 10504 AND";
"2 1 10504 23682 23683 XOR";
"2 1 17004 23683 10502 XOR";
"2 1 23746 23683 2150 XOR";
"2 1 2150 17005 23558 XOR";
"2 1 23810 23683 10503 XOR";
"2 1 10503 10502 10501 AND";
"2 1 10501 23683 23684 XOR";
"2 1 23811 23684 10500 XOR";
"2 1 23747 23684 2149 XOR";
"2 1 2149 17006 23559 XOR";
"2 1 17005 23684 10499 XOR";
"2 1 10500 10499 10498 AND";
"2 1 10498 23684 23685 XOR";
"2 1 17006 23685 10496 XOR";
"2 1 23812 23685 10497 XOR";
"2 1 10497 10496 10495 AND";
"2 1 10495 23685 23686 XOR";
"2 1 23749 23686 2147 XOR";
"2 1 23813 23686 10494 XOR";
"2 1 17007 23686 10493 XOR";
"2 1 10494 10493 10492 AND";
"2 1 10492 23686 23687 XOR";
"2 1 17008 23687 10490 XOR";
"2 1 23750 23687 2146 XOR";
"2 1 2147 17008 23561 XOR";
"2 1 2146 17009 23562 XOR";
"2 1 23748 23685 2148 XOR";
"2 1 2148 17007 23560 XOR";
"2 1 23745 23682 2151 XOR";
"2 1 2151 17004 23557 XOR";
"2 1 23814 23687 10491 XOR";
"2 1 10491 10490 10489 AND";
"2 1 10489 23687 23688 XOR";
"2 1 23751 23688 161 XOR";
"1 1 161 16661 INV";
"2 1 2158 16661 23614 XOR";
"2 1 2157 16661 23615 XOR";
"2 1 2156 16661 23616 XOR";
"2 1 2208 16661 23564 XOR";
"2 1 2202 16661 23570 XOR";
"2 1 2196 16661 23576 XOR";
"2 1 2190 16661 23582 XOR";
"2 1 2184 16661 23588 XOR";
"2 1 2178 16661 23594 XOR";
"2 1 2172 16661 23600 XOR";
"2 1 2166 16661 23606 XOR";
"2 1 2153 16661 23619 XOR";
"2 1 2151 16661 23621 XOR";
"2 1 2154 16661 23618 XOR";
"2 1 2152 16661 23620 XOR";
"2 1 2150 16661 23622 XOR";
"2 1 2149 16661 23623 XOR";
"2 1 16850 16661 23563 XOR";
"2 1 23563 16946 23437 AND";
"2 1 16947 23437 10487 XOR";
"2 1 23564 23437 10488 XOR";
"2 1 10488 10487 10486 AND";
"2 1 10486 23437 23438 XOR";
"2 1 23501 23438 2269 XOR";
"2 1 16948 23438 10484 XOR";
"2 1 23500 23437 2270 XOR";
"2 1 2270 16948 23312 XOR";
"2 1 2269 16949 23313 XOR";
"2 1 2204 16661 23568 XOR";
"2 1 2205 16661 23567 XOR";
"2 1 2207 16661 23565 XOR";
"2 1 23565 23438 10485 XOR";
"2 1 10485 10484 10483 AND";
"2 1 10483 23438 23439 XOR";
"2 1 23502 23439 2268 XOR";
"2 1 16949 23439 10481 XOR";
"2 1 2268 16950 23314 XOR";
"2 1 2206 16661 23566 XOR";
"2 1 23566 23439 10482 XOR";
"2 1 10482 10481 10480 AND";
"2 1 10480 23439 23440 XOR";
"2 1 23503 23440 2267 XOR";
"2 1 16950 23440 10478 XOR";
"2 1 23567 23440 10479 XOR";
"2 1 10479 10478 10477 AND";
"2 1 10477 23440 23441 XOR";
"2 1 23504 23441 2266 XOR";
"2 1 23568 23441 10476 XOR";
"2 1 16951 23441 10475 XOR";
"2 1 10476 10475 10474 AND";
"2 1 10474 23441 23442 XOR";
"2 1 23505 23442 2265 XOR";
"2 1 16952 23442 10472 XOR";
"2 1 2267 16951 23315 XOR";
"2 1 2266 16952 23316 XOR";
"2 1 2265 16953 23317 XOR";
"2 1 2203 16661 23569 XOR";
"2 1 23569 23442 10473 XOR";
"2 1 10473 10472 10471 AND";
"2 1 10471 23442 23443 XOR";
"2 1 16953 23443 10469 XOR";
"2 1 23570 23443 10470 XOR";
"2 1 10470 10469 10468 AND";
"2 1 10468 23443 23444 XOR";
"2 1 23507 23444 2263 XOR";
"2 1 16954 23444 10466 XOR";
"2 1 23506 23443 2264 XOR";
"2 1 2264 16954 23318 XOR";
"2 1 2263 16955 23319 XOR";
"2 1 2198 16661 23574 XOR";
"2 1 2199 16661 23573 XOR";
"2 1 2201 16661 23571 XOR";
"2 1 23571 23444 10467 XOR";
"2 1 10467 10466 10465 AND";
"2 1 10465 23444 23445 XOR";
"2 1 23508 23445 2262 XOR";
"2 1 16955 23445 10463 XOR";
"2 1 2262 16956 23320 XOR";
"2 1 2200 16661 23572 XOR";
"2 1 23572 23445 10464 XOR";
"2 1 10464 10463 10462 AND";
"2 1 10462 23445 23446 XOR";
"2 1 23509 23446 2261 XOR";
"2 1 16956 23446 10460 XOR";
"2 1 23573 23446 10461 XOR";
"2 1 10461 10460 10459 AND";
"2 1 10459 23446 23447 XOR";
"2 1 23510 23447 2260 XOR";
"2 1 23574 23447 10458 XOR";
"2 1 16957 23447 10457 XOR";
"2 1 10458 10457 10456 AND";
"2 1 10456 23447 23448 XOR";
"2 1 23511 23448 2259 XOR";
"2 1 16958 23448 10454 XOR";
"2 1 2261 16957 23321 XOR";
"2 1 2260 16958 23322 XOR";
"2 1 2259 16959 23323 XOR";
"2 1 2197 16661 23575 XOR";
"2 1 23575 23448 10455 XOR";
"2 1 10455 10454 10453 AND";
"2 1 10453 23448 23449 XOR";
"2 1 16959 23449 10451 XOR";
"2 1 23576 23449 10452 XOR";
"2 1 10452 10451 10450 AND";
"2 1 10450 23449 23450 XOR";
"2 1 23513 23450 2257 XOR";
"2 1 16960 23450 10448 XOR";
"2 1 23512 23449 2258 XOR";
"2 1 2258 16960 23324 XOR";
"2 1 2257 16961 23325 XOR";
"2 1 2192 16661 23580 XOR";
"2 1 2193 16661 23579 XOR";
"2 1 2195 16661 23577 XOR";
"2 1 23577 23450 10449 XOR";
"2 1 10449 10448 10447 AND";
"2 1 10447 23450 23451 XOR";
"2 1 23514 23451 2256 XOR";
"2 1 16961 23451 10445 XOR";
"2 1 2256 16962 23326 XOR";
"2 1 2194 16661 23578 XOR";
"2 1 23578 23451 10446 XOR";
"2 1 10446 10445 10444 AND";
"2 1 10444 23451 23452 XOR";
"2 1 23579 23452 10443 XOR";
"2 1 23515 23452 2255 XOR";
"2 1 16962 23452 10442 XOR";
"2 1 10443 10442 10441 AND";
"2 1 10441 23452 23453 XOR";
"2 1 23516 23453 2254 XOR";
"2 1 23580 23453 10440 XOR";
"2 1 16963 23453 10439 XOR";
"2 1 10440 10439 10438 AND";
"2 1 10438 23453 23454 XOR";
"2 1 23517 23454 2253 XOR";
"2 1 16964 23454 10436 XOR";
"2 1 2255 16963 23327 XOR";
"2 1 2254 16964 23328 XOR";
"2 1 2253 16965 23329 XOR";
"2 1 2191 16661 23581 XOR";
"2 1 23581 23454 10437 XOR";
"2 1 10437 10436 10435 AND";
"2 1 10435 23454 23455 XOR";
"2 1 16965 23455 10433 XOR";
"2 1 23582 23455 10434 XOR";
"2 1 10434 10433 10432 AND";
"2 1 10432 23455 23456 XOR";
"2 1 23519 23456 2251 XOR";
"2 1 16966 23456 10430 XOR";
"2 1 23518 23455 2252 XOR";
"2 1 2252 16966 23330 XOR";
"2 1 2251 16967 23331 XOR";
"2 1 2186 16661 23586 XOR";
"2 1 2187 16661 23585 XOR";
"2 1 2189 16661 23583 XOR";
"2 1 23583 23456 10431 XOR";
"2 1 10431 10430 10429 AND";
"2 1 10429 23456 23457 XOR";
"2 1 23520 23457 2250 XOR";
"2 1 16967 23457 10427 XOR";
"2 1 2250 16968 23332 XOR";
"2 1 2188 16661 23584 XOR";
"2 1 23584 23457 10428 XOR";
"2 1 10428 10427 10426 AND";
"2 1 10426 23457 23458 XOR";
"2 1 23521 23458 2249 XOR";
"2 1 16968 23458 10424 XOR";
"2 1 2249 16969 23333 XOR";
"2 1 23585 23458 10425 XOR";
"2 1 10425 10424 10423 AND";
"2 1 10423 23458 23459 XOR";
"2 1 23522 23459 2248 XOR";
"2 1 23586 23459 10422 XOR";
"2 1 16969 23459 10421 XOR";
"2 1 10422 10421 10420 AND";
"2 1 10420 23459 23460 XOR";
"2 1 23523 23460 2247 XOR";
"2 1 16970 23460 10418 XOR";
"2 1 2248 16970 23334 XOR";
"2 1 2247 16971 23335 XOR";
"2 1 2185 16661 23587 XOR";
"2 1 23587 23460 10419 XOR";
"2 1 10419 10418 10417 AND";
"2 1 10417 23460 23461 XOR";
"2 1 16971 23461 10415 XOR";
"2 1 23588 23461 10416 XOR";
"2 1 10416 10415 10414 AND";
"2 1 10414 23461 23462 XOR";
"2 1 23525 23462 2245 XOR";
"2 1 16972 23462 10412 XOR";
"2 1 23524 23461 2246 XOR";
"2 1 2246 16972 23336 XOR";
"2 1 2245 16973 23337 XOR";
"2 1 2180 16661 23592 XOR";
"2 1 2181 16661 23591 XOR";
"2 1 2183 16661 23589 XOR";
"2 1 23589 23462 10413 XOR";
"2 1 10413 10412 10411 AND";
"2 1 10411 23462 23463 XOR";
"2 1 16973 23463 10409 XOR";
"2 1 23526 23463 2244 XOR";
"2 1 2244 16974 23338 XOR";
"2 1 2182 16661 23590 XOR";
"2 1 23590 23463 10410 XOR";
"2 1 10410 10409 10408 AND";
"2 1 10408 23463 23464 XOR";
"2 1 16974 23464 10406 XOR";
"2 1 23591 23464 10407 XOR";
"2 1 10407 10406 10405 AND";
"2 1 23527 23464 2243 XOR";
"2 1 2243 16975 23339 XOR";
"2 1 10405 23464 23465 XOR";
"2 1 16975 23465 10403 XOR";
"2 1 23528 23465 2242 XOR";
"2 1 23592 23465 10404 XOR";
"2 1 2242 16976 23340 XOR";
"2 1 10404 10403 10402 AND";
"2 1 10402 23465 23466 XOR";
"2 1 23529 23466 2241 XOR";
"2 1 16976 23466 10400 XOR";
"2 1 2241 16977 23341 XOR";
"2 1 2179 16661 23593 XOR";
"2 1 23593 23466 10401 XOR";
"2 1 10401 10400 10399 AND";
"2 1 10399 23466 23467 XOR";
"2 1 23530 23467 2240 XOR";
"2 1 16977 23467 10397 XOR";
"2 1 2240 16978 23342 XOR";
"2 1 23594 23467 10398 XOR";
"2 1 10398 10397 10396 AND";
"2 1 10396 23467 23468 XOR";
"2 1 23531 23468 2239 XOR";
"2 1 2239 16979 23343 XOR";
"2 1 16978 23468 10394 XOR";
"2 1 2174 16661 23598 XOR";
"2 1 2175 16661 23597 XOR";
"2 1 2177 16661 23595 XOR";
"2 1 23595 23468 10395 XOR";
"2 1 10395 10394 10393 AND";
"2 1 10393 23468 23469 XOR";
"2 1 23532 23469 2238 XOR";
"2 1 2238 16980 23344 XOR";
"2 1 16979 23469 10391 XOR";
"2 1 2176 16661 23596 XOR";
"2 1 23596 23469 10392 XOR";
"2 1 10392 10391 10390 AND";
"2 1 10390 23469 23470 XOR";
"2 1 23597 23470 10389 XOR";
"2 1 23533 23470 2237 XOR";
"2 1 16980 23470 10388 XOR";
"2 1 10389 10388 10387 AND";
"2 1 10387 23470 23471 XOR";
"2 1 2237 16981 23345 XOR";
"2 1 16981 23471 10385 XOR";
"2 1 23534 23471 2236 XOR";
"2 1 2236 16982 23346 XOR";
"2 1 23598 23471 10386 XOR";
"2 1 10386 10385 10384 AND";
"2 1 10384 23471 23472 XOR";
"2 1 16982 23472 10382 XOR";
"2 1 23535 23472 2235 XOR";
"2 1 2235 16983 23347 XOR";
"2 1 2173 16661 23599 XOR";
"2 1 23599 23472 10383 XOR";
"2 1 10383 10382 10381 AND";
"2 1 10381 23472 23473 XOR";
"2 1 23536 23473 2234 XOR";
"2 1 16983 23473 10379 XOR";
"2 1 23600 23473 10380 XOR";
"2 1 2234 16984 23348 XOR";
"2 1 10380 10379 10378 AND";
"2 1 10378 23473 23474 XOR";
"2 1 16984 23474 10376 XOR";
"2 1 23537 23474 2233 XOR";
"2 1 2233 16985 23349 XOR";
"2 1 2168 16661 23604 XOR";
"2 1 2169 16661 23603 XOR";
"2 1 2171 16661 23601 XOR";
"2 1 23601 23474 10377 XOR";
"2 1 10377 10376 10375 AND";
"2 1 10375 23474 23475 XOR";
"2 1 23538 23475 2232 XOR";
"2 1 2232 16986 23350 XOR";
"2 1 16985 23475 10373 XOR";
"2 1 2170 16661 23602 XOR";
"2 1 23602 23475 10374 XOR";
"2 1 10374 10373 10372 AND";
"2 1 10372 23475 23476 XOR";
"2 1 16986 23476 10370 XOR";
"2 1 23603 23476 10371 XOR";
"2 1 23539 23476 2231 XOR";
"2 1 2231 16987 23351 XOR";
"2 1 10371 10370 10369 AND";
"2 1 10369 23476 23477 XOR";
"2 1 23604 23477 10368 XOR";
"2 1 16987 23477 10367 XOR";
"2 1 23540 23477 2230 XOR";
"2 1 10368 10367 10366 AND";
"2 1 2230 16988 23352 XOR";
"2 1 10366 23477 23478 XOR";
"2 1 16988 23478 10364 XOR";
"2 1 23541 23478 2229 XOR";
"2 1 2229 16989 23353 XOR";
"2 1 2167 16661 23605 XOR";
"2 1 23605 23478 10365 XOR";
"2 1 10365 10364 10363 AND";
"2 1 10363 23478 23479 XOR";
"2 1 23606 23479 10362 XOR";
"2 1 23542 23479 2228 XOR";
"2 1 16989 23479 10361 XOR";
"2 1 10362 10361 10360 AND";
"2 1 10360 23479 23480 XOR";
"2 1 23543 23480 2227 XOR";
"2 1 2228 16990 23354 XOR";
"2 1 2227 16991 23355 XOR";
"2 1 16990 23480 10358 XOR";
"2 1 2162 16661 23610 XOR";
"2 1 2163 16661 23609 XOR";
"2 1 2165 16661 23607 XOR";
"2 1 23607 23480 10359 XOR";
"2 1 10359 10358 10357 AND";
"2 1 10357 23480 23481 XOR";
"2 1 16991 23481 10355 XOR";
"2 1 23544 23481 2226 XOR";
"2 1 2226 16992 23356 XOR";
"2 1 2164 16661 23608 XOR";
"2 1 23608 23481 10356 XOR";
"2 1 10356 10355 10354 AND";
"2 1 10354 23481 23482 XOR";
"2 1 23609 23482 10353 XOR";
"2 1 16992 23482 10352 XOR";
"2 1 10353 10352 10351 AND";
"2 1 10351 23482 23483 XOR";
"2 1 16993 23483 10349 XOR";
"2 1 23546 23483 2224 XOR";
"2 1 2224 16994 23358 XOR";
"2 1 23545 23482 2225 XOR";
"2 1 2225 16993 23357 XOR";
"2 1 23610 23483 10350 XOR";
"2 1 10350 10349 10348 AND";
"2 1 10348 23483 23484 XOR";
"2 1 16994 23484 10346 XOR";
"2 1 23547 23484 2223 XOR";
"2 1 2223 16995 23359 XOR";
"2 1 2161 16661 23611 XOR";
"2 1 23611 23484 10347 XOR";
"2 1 10347 10346 10345 AND";
"2 1 10345 23484 23485 XOR";
"2 1 23548 23485 2222 XOR";
"2 1 16995 23485 10343 XOR";
"2 1 2222 16996 23360 XOR";
"2 1 2160 16661 23612 XOR";
"2 1 23612 23485 10344 XOR";
"2 1 10344 10343 10342 AND";
"2 1 10342 23485 23486 XOR";
"2 1 23549 23486 2221 XOR";
"2 1 16996 23486 10340 XOR";
"2 1 2221 16997 23361 XOR";
"2 1 16661 4535 17545 AND";
"2 1 2147 16661 23625 XOR";
"2 1 2155 16661 23617 XOR";
"2 1 2148 16661 23624 XOR";
"2 1 2159 16661 23613 XOR";
"2 1 23613 23486 10341 XOR";
"2 1 10341 10340 10339 AND";
"2 1 10339 23486 23487 XOR";
"2 1 23550 23487 2220 XOR";
"2 1 2220 16998 23362 XOR";
"2 1 23614 23487 10338 XOR";
"2 1 16997 23487 10337 XOR";
"2 1 10338 10337 10336 AND";
"2 1 10336 23487 23488 XOR";
"2 1 16998 23488 10334 XOR";
"2 1 23615 23488 10335 XOR";
"2 1 10335 10334 10333 AND";
"2 1 10333 23488 23489 XOR";
"2 1 23552 23489 2218 XOR";
"2 1 23616 23489 10332 XOR";
"2 1 2218 17000 23364 XOR";
"2 1 16999 23489 10331 XOR";
"2 1 10332 10331 10330 AND";
"2 1 10330 23489 23490 XOR";
"2 1 23617 23490 10329 XOR";
"2 1 23553 23490 2217 XOR";
"2 1 17000 23490 10328 XOR";
"2 1 10329 10328 10327 AND";
"2 1 10327 23490 23491 XOR";
"2 1 23554 23491 2216 XOR";
"2 1 2216 17002 23366 XOR";
"2 1 2217 17001 23365 XOR";
"2 1 17001 23491 10325 XOR";
"2 1 23551 23488 2219 XOR";
"2 1 2219 16999 23363 XOR";
"2 1 23618 23491 10326 XOR";
"2 1 10326 10325 10324 AND";
"2 1 10324 23491 23492 XOR";
"2 1 23555 23492 2215 XOR";
"2 1 17002 23492 10322 XOR";
"2 1 2215 17003 23367 XOR";
"2 1 23619 23492 10323 XOR";
"2 1 10323 10322 10321 AND";
"2 1 10321 23492 23493 XOR";
"2 1 17003 23493 10319 XOR";
"2 1 23620 23493 10320 XOR";
"2 1 23556 23493 2214 XOR";
"2 1 2214 17004 23368 XOR";
"2 1 10320 10319 10318 AND";
"2 1 10318 23493 23494 XOR";
"2 1 23621 23494 10317 XOR";
"2 1 17004 23494 10316 XOR";
"2 1 10317 10316 10315 AND";
"2 1 23557 23494 2213 XOR";
"2 1 2213 17005 23369 XOR";
"2 1 10315 23494 23495 XOR";
"2 1 23558 23495 2212 XOR";
"2 1 17005 23495 10313 XOR";
"2 1 2212 17006 23370 XOR";
"2 1 23622 23495 10314 XOR";
"2 1 10314 10313 10312 AND";
"2 1 10312 23495 23496 XOR";
"2 1 23559 23496 2211 XOR";
"2 1 23623 23496 10311 XOR";
"2 1 2211 17007 23371 XOR";
"2 1 17006 23496 10310 XOR";
"2 1 10311 10310 10309 AND";
"2 1 10309 23496 23497 XOR";
"2 1 23560 23497 2210 XOR";
"2 1 2210 17008 23372 XOR";
"2 1 17007 23497 10307 XOR";
"2 1 23624 23497 10308 XOR";
"2 1 10308 10307 10306 AND";
"2 1 10306 23497 23498 XOR";
"2 1 23625 23498 10305 XOR";
"2 1 17008 23498 10304 XOR";
"2 1 23561 23498 2209 XOR";
"2 1 2209 17009 23373 XOR";
"2 1 10305 10304 10303 AND";
"2 1 10303 23498 23499 XOR";
"2 1 23562 23499 162 XOR";
"1 1 162 16660 INV";
"2 1 2210 16660 23436 XOR";
"2 1 2214 16660 23432 XOR";
"2 1 2270 16660 23376 XOR";
"2 1 2264 16660 23382 XOR";
"2 1 2258 16660 23388 XOR";
"2 1 2252 16660 23394 XOR";
"2 1 2246 16660 23400 XOR";
"2 1 2240 16660 23406 XOR";
"2 1 2234 16660 23412 XOR";
"2 1 2228 16660 23418 XOR";
"2 1 2219 16660 23427 XOR";
"2 1 2213 16660 23433 XOR";
"2 1 2215 16660 23431 XOR";
"2 1 2221 16660 23425 XOR";
"2 1 2211 16660 23435 XOR";
"2 1 2212 16660 23434 XOR";
"2 1 2220 16660 23426 XOR";
"2 1 2218 16660 23428 XOR";
"2 1 2216 16660 23430 XOR";
"2 1 2217 16660 23429 XOR";
"2 1 16849 16660 23374 XOR";
"2 1 23374 16946 23248 AND";
"2 1 16947 23248 10301 XOR";
"2 1 23311 23248 2333 XOR";
"2 1 2333 16948 23123 XOR";
"2 1 2271 16660 23375 XOR";
"2 1 23375 23248 10302 XOR";
"2 1 10302 10301 10300 AND";
"2 1 10300 23248 23249 XOR";
"2 1 23312 23249 2332 XOR";
"2 1 16948 23249 10298 XOR";
"2 1 23376 23249 10299 XOR";
"2 1 10299 10298 10297 AND";
"2 1 10297 23249 23250 XOR";
"2 1 23313 23250 2331 XOR";
"2 1 16949 23250 10295 XOR";
"2 1 2332 16949 23124 XOR";
"2 1 2331 16950 23125 XOR";
"2 1 2266 16660 23380 XOR";
"2 1 2267 16660 23379 XOR";
"2 1 2269 16660 23377 XOR";
"2 1 23377 23250 10296 XOR";
"2 1 10296 10295 10294 AND";
"2 1 10294 23250 23251 XOR";
"2 1 23314 23251 2330 XOR";
"2 1 16950 23251 10292 XOR";
"2 1 2330 16951 23126 XOR";
"2 1 2268 16660 23378 XOR";
"2 1 23378 23251 10293 XOR";
"2 1 10293 10292 10291 AND";
"2 1 10291 23251 23252 XOR";
"2 1 23315 23252 2329 XOR";
"2 1 23379 23252 10290 XOR";
"2 1 16951 23252 10289 XOR";
"2 1 10290 10289 10288 AND";
"2 1 10288 23252 23253 XOR";
"2 1 23380 23253 10287 XOR";
"2 1 23316 23253 2328 XOR";
"2 1 16952 23253 10286 XOR";
"2 1 10287 10286 10285 AND";
"2 1 10285 23253 23254 XOR";
"2 1 16953 23254 10283 XOR";
"2 1 23317 23254 2327 XOR";
"2 1 2329 16952 23127 XOR";
"2 1 2328 16953 23128 XOR";
"2 1 2327 16954 23129 XOR";
"2 1 2265 16660 23381 XOR";
"2 1 23381 23254 10284 XOR";
"2 1 10284 10283 10282 AND";
"2 1 10282 23254 23255 XOR";
"2 1 23318 23255 2326 XOR";
"2 1 16954 23255 10280 XOR";
"2 1 23382 23255 10281 XOR";
"2 1 10281 10280 10279 AND";
"2 1 10279 23255 23256 XOR";
"2 1 23319 23256 2325 XOR";
"2 1 16955 23256 10277 XOR";
"2 1 2326 16955 23130 XOR";
"2 1 2325 16956 23131 XOR";
"2 1 2260 16660 23386 XOR";
"2 1 2261 16660 23385 XOR";
"2 1 2263 16660 23383 XOR";
"2 1 23383 23256 10278 XOR";
"2 1 10278 10277 10276 AND";
"2 1 10276 23256 23257 XOR";
"2 1 23320 23257 2324 XOR";
"2 1 16956 23257 10274 XOR";
"2 1 2324 16957 23132 XOR";
"2 1 2262 16660 23384 XOR";
"2 1 23384 23257 10275 XOR";
"2 1 10275 10274 10273 AND";
"2 1 10273 23257 23258 XOR";
"2 1 23321 23258 2323 XOR";
"2 1 23385 23258 10272 XOR";
"2 1 2323 16958 23133 XOR";
"2 1 2259 16660 23387 XOR";
"2 1 2254 16660 23392 XOR";
"2 1 2255 16660 23391 XOR";
"2 1 2257 16660 23389 XOR";
"2 1 2256 16660 23390 XOR";
"2 1 2253 16660 23393 XOR";
"2 1 2248 16660 23398 XOR";
"2 1 2249 16660 23397 XOR";
"2 1 2251 16660 23395 XOR";
"2 1 2250 16660 23396 XOR";
"2 1 2247 16660 23399 XOR";
"2 1 2242 16660 23404 XOR";
"2 1 2243 16660 23403 XOR";
"2 1 2245 16660 23401 XOR";
"2 1 2244 16660 23402 XOR";
"2 1 2241 16660 23405 XOR";
"2 1 2236 16660 23410 XOR";
"2 1 2237 16660 23409 XOR";
"2 1 2239 16660 23407 XOR";
"2 1 2238 16660 23408 XOR";
"2 1 2235 16660 23411 XOR";
"2 1 2230 16660 23416 XOR";
"2 1 2231 16660 23415 XOR";
"2 1 2233 16660 23413 XOR";
"2 1 2232 16660 23414 XOR";
"2 1 2229 16660 23417 XOR";
"2 1 2224 16660 23422 XOR";
"2 1 2225 16660 23421 XOR";
"2 1 2227 16660 23419 XOR";
"2 1 2226 16660 23420 XOR";
"2 1 2223 16660 23423 XOR";
"2 1 16660 4535 17544 AND";
"2 1 16957 23258 10271 XOR";
"2 1 10272 10271 10270 AND";
"2 1 10270 23258 23259 XOR";
"2 1 23386 23259 10269 XOR";
"2 1 23322 23259 2322 XOR";
"2 1 16958 23259 10268 XOR";
"2 1 10269 10268 10267 AND";
"2 1 10267 23259 23260 XOR";
"2 1 16959 23260 10265 XOR";
"2 1 23387 23260 10266 XOR";
"2 1 10266 10265 10264 AND";
"2 1 10264 23260 23261 XOR";
"2 1 23324 23261 2320 XOR";
"2 1 16960 23261 10262 XOR";
"2 1 23388 23261 10263 XOR";
"2 1 10263 10262 10261 AND";
"2 1 23323 23260 2321 XOR";
"2 1 10261 23261 23262 XOR";
"2 1 23389 23262 10260 XOR";
"2 1 16961 23262 10259 XOR";
"2 1 23325 23262 2319 XOR";
"2 1 10260 10259 10258 AND";
"2 1 10258 23262 23263 XOR";
"2 1 23326 23263 2318 XOR";
"2 1 16962 23263 10256 XOR";
"2 1 23390 23263 10257 XOR";
"2 1 10257 10256 10255 AND";
"2 1 10255 23263 23264 XOR";
"2 1 23327 23264 2317 XOR";
"2 1 23391 23264 10254 XOR";
"2 1 16963 23264 10253 XOR";
"2 1 10254 10253 10252 AND";
"2 1 10252 23264 23265 XOR";
"2 1 23328 23265 2316 XOR";
"2 1 16964 23265 10250 XOR";
"2 1 23392 23265 10251 XOR";
"2 1 10251 10250 10249 AND";
"2 1 10249 23265 23266 XOR";
"2 1 23393 23266 10248 XOR";
"2 1 16965 23266 10247 XOR";
"2 1 10248 10247 10246 AND";
"2 1 10246 23266 23267 XOR";
"2 1 16966 23267 10244 XOR";
"2 1 23394 23267 10245 XOR";
"2 1 10245 10244 10243 AND";
"2 1 10243 23267 23268 XOR";
"2 1 23395 23268 10242 XOR";
"2 1 16967 23268 10241 XOR";
"2 1 10242 10241 10240 AND";
"2 1 10240 23268 23269 XOR";
"2 1 16968 23269 10238 XOR";
"2 1 23332 23269 2312 XOR";
"2 1 23331 23268 2313 XOR";
"2 1 23396 23269 10239 XOR";
"2 1 10239 10238 10237 AND";
"2 1 10237 23269 23270 XOR";
"2 1 23397 23270 10236 XOR";
"2 1 16969 23270 10235 XOR";
"2 1 23333 23270 2311 XOR";
"2 1 10236 10235 10234 AND";
"2 1 10234 23270 23271 XOR";
"2 1 16970 23271 10232 XOR";
"2 1 23398 23271 10233 XOR";
"2 1 10233 10232 10231 AND";
"2 1 23334 23271 2310 XOR";
"2 1 10231 23271 23272 XOR";
"2 1 16971 23272 10229 XOR";
"2 1 23399 23272 10230 XOR";
"2 1 23335 23272 2309 XOR";
"2 1 10230 10229 10228 AND";
"2 1 10228 23272 23273 XOR";
"2 1 23336 23273 2308 XOR";
"2 1 23400 23273 10227 XOR";
"2 1 16972 23273 10226 XOR";
"2 1 10227 10226 10225 AND";
"2 1 23330 23267 2314 XOR";
"2 1 2322 16959 23134 XOR";
"2 1 2321 16960 23135 XOR";
"2 1 2320 16961 23136 XOR";
"2 1 2319 16962 23137 XOR";
"2 1 2318 16963 23138 XOR";
"2 1 2317 16964 23139 XOR";
"2 1 2316 16965 23140 XOR";
"2 1 2314 16967 23142 XOR";
"2 1 2313 16968 23143 XOR";
"2 1 2312 16969 23144 XOR";
"2 1 2311 16970 23145 XOR";
"2 1 2310 16971 23146 XOR";
"2 1 2309 16972 23147 XOR";
"2 1 2308 16973 23148 XOR";
"2 1 10225 23273 23274 XOR";
"2 1 23337 23274 2307 XOR";
"2 1 23401 23274 10224 XOR";
"2 1 16973 23274 10223 XOR";
"2 1 10224 10223 10222 AND";
"2 1 10222 23274 23275 XOR";
"2 1 23338 23275 2306 XOR";
"2 1 16974 23275 10220 XOR";
"2 1 2307 16974 23149 XOR";
"2 1 2306 16975 23150 XOR";
"2 1 23402 23275 10221 XOR";
"2 1 10221 10220 10219 AND";
"2 1 10219 23275 23276 XOR";
"2 1 23339 23276 2305 XOR";
"2 1 23403 23276 10218 XOR";
"2 1 2305 16976 23151 XOR";
"2 1 16975 23276 10217 XOR";
"2 1 10218 10217 10216 AND";
"2 1 10216 23276 23277 XOR";
"2 1 23404 23277 10215 XOR";
"2 1 23340 23277 2304 XOR";
"2 1 16976 23277 10214 XOR";
"2 1 10215 10214 10213 AND";
"2 1 10213 23277 23278 XOR";
"2 1 16977 23278 10211 XOR";
"2 1 23405 23278 10212 XOR";
"2 1 2304 16977 23152 XOR";
"2 1 23341 23278 2303 XOR";
"2 1 2303 16978 23153 XOR";
"2 1 10212 10211 10210 AND";
"2 1 10210 23278 23279 XOR";
"2 1 23406 23279 10209 XOR";
"2 1 23342 23279 2302 XOR";
"2 1 16978 23279 10208 XOR";
"2 1 10209 10208 10207 AND";
"2 1 2302 16979 23154 XOR";
"2 1 10207 23279 23280 XOR";
"2 1 23343 23280 2301 XOR";
"2 1 23407 23280 10206 XOR";
"2 1 2301 16980 23155 XOR";
"2 1 16979 23280 10205 XOR";
"2 1 10206 10205 10204 AND";
"2 1 10204 23280 23281 XOR";
"2 1 16980 23281 10202 XOR";
"2 1 23344 23281 2300 XOR";
"2 1 2300 16981 23156 XOR";
"2 1 23408 23281 10203 XOR";
"2 1 10203 10202 10201 AND";
"2 1 10201 23281 23282 XOR";
"2 1 16981 23282 10199 XOR";
"2 1 23345 23282 2299 XOR";
"2 1 2299 16982 23157 XOR";
"2 1 23409 23282 10200 XOR";
"2 1 10200 10199 10198 AND";
"2 1 10198 23282 23283 XOR";
"2 1 23410 23283 10197 XOR";
"2 1 23346 23283 2298 XOR";
"2 1 16982 23283 10196 XOR";
"2 1 10197 10196 10195 AND";
"2 1 10195 23283 23284 XOR";
"2 1 23347 23284 2297 XOR";
"2 1 16983 23284 10193 XOR";
"2 1 23411 23284 10194 XOR";
"2 1 10194 10193 10192 AND";
"2 1 10192 23284 23285 XOR";
"2 1 23412 23285 10191 XOR";
"2 1 23348 23285 2296 XOR";
"2 1 16984 23285 10190 XOR";
"2 1 2298 16983 23158 XOR";
"2 1 2297 16984 23159 XOR";
"2 1 2296 16985 23160 XOR";
"2 1 10191 10190 10189 AND";
"2 1 10189 23285 23286 XOR";
"2 1 23413 23286 10188 XOR";
"2 1 16985 23286 10187 XOR";
"2 1 10188 10187 10186 AND";
"2 1 10186 23286 23287 XOR";
"2 1 23414 23287 10185 XOR";
"2 1 23350 23287 2294 XOR";
"2 1 16986 23287 10184 XOR";
"2 1 2294 16987 23162 XOR";
"2 1 10185 10184 10183 AND";
"2 1 10183 23287 23288 XOR";
"2 1 16987 23288 10181 XOR";
"2 1 23415 23288 10182 XOR";
"2 1 10182 10181 10180 AND";
"2 1 10180 23288 23289 XOR";
"2 1 23416 23289 10179 XOR";
"2 1 23352 23289 2292 XOR";
"2 1 2292 16989 23164 XOR";
"2 1 23351 23288 2293 XOR";
"2 1 2293 16988 23163 XOR";
"2 1 23349 23286 2295 XOR";
"2 1 2295 16986 23161 XOR";
"2 1 16988 23289 10178 XOR";
"2 1 10179 10178 10177 AND";
"2 1 10177 23289 23290 XOR";
"2 1 23353 23290 2291 XOR";
"2 1 16989 23290 10175 XOR";
"2 1 23417 23290 10176 XOR";
"2 1 10176 10175 10174 AND";
"2 1 10174 23290 23291 XOR";
"2 1 16990 23291 10172 XOR";
"2 1 23418 23291 10173 XOR";
"2 1 10173 10172 10171 AND";
"2 1 10171 23291 23292 XOR";
"2 1 16991 23292 10169 XOR";
"2 1 23419 23292 10170 XOR";
"2 1 23354 23291 2290 XOR";
"2 1 2291 16990 23165 XOR";
"2 1 2290 16991 23166 XOR";
"2 1 23355 23292 2289 XOR";
"2 1 2289 16992 23167 XOR";
"2 1 10170 10169 10168 AND";
"2 1 10168 23292 23293 XOR";
"2 1 23420 23293 10167 XOR";
"2 1 23356 23293 2288 XOR";
"2 1 16992 23293 10166 XOR";
"2 1 10167 10166 10165 AND";
"2 1 10165 23293 23294 XOR";
"2 1 23357 23294 2287 XOR";
"2 1 23421 23294 10164 XOR";
"2 1 2288 16993 23168 XOR";
"2 1 2287 16994 23169 XOR";
"2 1 16993 23294 10163 XOR";
"2 1 10164 10163 10162 AND";
"2 1 10162 23294 23295 XOR";
"2 1 23422 23295 10161 XOR";
"2 1 23358 23295 2286 XOR";
"2 1 2286 16995 23170 XOR";
"2 1 16994 23295 10160 XOR";
"2 1 10161 10160 10159 AND";
"2 1 10159 23295 23296 XOR";
"2 1 23359 23296 2285 XOR";
"2 1 23423 23296 10158 XOR";
"2 1 2285 16996 23171 XOR";
"2 1 16995 23296 10157 XOR";
"2 1 10158 10157 10156 AND";
"2 1 10156 23296 23297 XOR";
"2 1 16996 23297 10154 XOR";
"2 1 23360 23297 2284 XOR";
"2 1 2284 16997 23172 XOR";
"2 1 23329 23266 2315 XOR";
"2 1 2315 16966 23141 XOR";
"2 1 2222 16660 23424 XOR";
"2 1 23424 23297 10155 XOR";
"2 1 10155 10154 10153 AND";
"2 1 10153 23297 23298 XOR";
"2 1 16997 23298 10151 XOR";
"2 1 23361 23298 2283 XOR";
"2 1 2283 16998 23173 XOR";
"2 1 23425 23298 10152 XOR";
"2 1 10152 10151 10150 AND";
"2 1 10150 23298 23299 XOR";
"2 1 16998 23299 10148 XOR";
"2 1 23362 23299 2282 XOR";
"2 1 2282 16999 23174 XOR";
"2 1 23426 23299 10149 XOR";
"2 1 10149 10148 10147 AND";
"2 1 10147 23299 23300 XOR";
"2 1 16999 23300 10145 XOR";
"2 1 23427 23300 10146 XOR";
"2 1 10146 10145 10144 AND";
"2 1 10144 23300 23301 XOR";
"2 1 17000 23301 10142 XOR";
"2 1 23363 23300 2281 XOR";
"2 1 2281 17000 23175 XOR";
"2 1 23428 23301 10143 XOR";
"2 1 10143 10142 10141 AND";
"2 1 10141 23301 23302 XOR";
"2 1 17001 23302 10139 XOR";
"2 1 23429 23302 10140 XOR";
"2 1 23365 23302 2279 XOR";
"2 1 10140 10139 10138 AND";
"2 1 10138 23302 23303 XOR";
"2 1 17002 23303 10136 XOR";
"2 1 23366 23303 2278 XOR";
"2 1 2278 17003 23178 XOR";
"2 1 2279 17002 23177 XOR";
"2 1 23430 23303 10137 XOR";
"2 1 10137 10136 10135 AND";
"2 1 10135 23303 23304 XOR";
"2 1 23367 23304 2277 XOR";
"2 1 23431 23304 10134 XOR";
"2 1 17003 23304 10133 XOR";
"2 1 2277 17004 23179 XOR";
"2 1 23364 23301 2280 XOR";
"2 1 2280 17001 23176 XOR";
"2 1 10134 10133 10132 AND";
"2 1 10132 23304 23305 XOR";
"2 1 17004 23305 10130 XOR";
"2 1 23368 23305 2276 XOR";
"2 1 2276 17005 23180 XOR";
"2 1 23432 23305 10131 XOR";
"2 1 10131 10130 10129 AND";
"2 1 10129 23305 23306 XOR";
"2 1 23433 23306 10128 XOR";
"2 1 17005 23306 10127 XOR";
"2 1 10128 10127 10126 AND";
"2 1 23369 23306 2275 XOR";
"2 1 2275 17006 23181 XOR";
"2 1 10126 23306 23307 XOR";
"2 1 23370 23307 2274 XOR";
"2 1 23434 23307 10125 XOR";
"2 1 17006 23307 10124 XOR";
"2 1 10125 10124 10123 AND";
"2 1 10123 23307 23308 XOR";
"2 1 17007 23308 10121 XOR";
"2 1 23435 23308 10122 XOR";
"2 1 10122 10121 10120 AND";
"2 1 2274 17007 23182 XOR";
"2 1 23371 23308 2273 XOR";
"2 1 2273 17008 23183 XOR";
"2 1 10120 23308 23309 XOR";
"2 1 17008 23309 10118 XOR";
"2 1 23372 23309 2272 XOR";
"2 1 2272 17009 23184 XOR";
"2 1 23436 23309 10119 XOR";
"2 1 10119 10118 10117 AND";
"2 1 10117 23309 23310 XOR";
"2 1 23373 23310 163 XOR";
"1 1 163 16659 INV";
"2 1 2282 16659 23238 XOR";
"2 1 2274 16659 23246 XOR";
"2 1 2280 16659 23240 XOR";
"2 1 2333 16659 23187 XOR";
"2 1 2327 16659 23193 XOR";
"2 1 2321 16659 23199 XOR";
"2 1 2315 16659 23205 XOR";
"2 1 2309 16659 23211 XOR";
"2 1 2303 16659 23217 XOR";
"2 1 2297 16659 23223 XOR";
"2 1 2291 16659 23229 XOR";
"2 1 2278 16659 23242 XOR";
"2 1 2277 16659 23243 XOR";
"2 1 2273 16659 23247 XOR";
"2 1 2281 16659 23239 XOR";
"2 1 2283 16659 23237 XOR";
"2 1 2276 16659 23244 XOR";
"2 1 16848 16659 23185 XOR";
"2 1 23185 16946 23059 AND";
"2 1 23122 23059 2396 XOR";
"2 1 16947 23059 10115 XOR";
"2 1 2396 16948 22934 XOR";
"2 1 2334 16659 23186 XOR";
"2 1 23186 23059 10116 XOR";
"2 1 10116 10115 10114 AND";
"2 1 10114 23059 23060 XOR";
"2 1 23123 23060 2395 XOR";
"2 1 23187 23060 10113 XOR";
"2 1 16948 23060 10112 XOR";
"2 1 10113 10112 10111 AND";
"2 1 10111 23060 23061 XOR";
"2 1 23124 23061 2394 XOR";
"2 1 16949 23061 10109 XOR";
"2 1 2395 16949 22935 XOR";
"2 1 2394 16950 22936 XOR";
"2 1 2329 16659 23191 XOR";
"2 1 2330 16659 23190 XOR";
"2 1 2332 16659 23188 XOR";
"2 1 23188 23061 10110 XOR";
"2 1 10110 10109 10108 AND";
"2 1 10108 23061 23062 XOR";
"2 1 23125 23062 2393 XOR";
"2 1 16950 23062 10106 XOR";
"2 1 2393 16951 22937 XOR";
"2 1 2331 16659 23189 XOR";
"2 1 23189 23062 10107 XOR";
"2 1 10107 10106 10105 AND";
"2 1 10105 23062 23063 XOR";
"2 1 23190 23063 10104 XOR";
"2 1 23126 23063 2392 XOR";
"2 1 16951 23063 10103 XOR";
"2 1 10104 10103 10102 AND";
"2 1 10102 23063 23064 XOR";
"2 1 16952 23064 10100 XOR";
"2 1 23191 23064 10101 XOR";
"2 1 10101 10100 10099 AND";
"2 1 10099 23064 23065 XOR";
"2 1 23128 23065 2390 XOR";
"2 1 16953 23065 10097 XOR";
"2 1 2392 16952 22938 XOR";
"2 1 2390 16954 22940 XOR";
"2 1 2328 16659 23192 XOR";
"2 1 23192 23065 10098 XOR";
"2 1 10098 10097 10096 AND";
"2 1 10096 23065 23066 XOR";
"2 1 23129 23066 2389 XOR";
"2 1 23193 23066 10095 XOR";
"2 1 16954 23066 10094 XOR";
"2 1 2389 16955 22941 XOR";
"2 1 2323 16659 23197 XOR";
"2 1 2324 16659 23196 XOR";
"2 1 2326 16659 23194 XOR";
"2 1 2325 16659 23195 XOR";
"2 1 2322 16659 23198 XOR";
"2 1 2317 16659 23203 XOR";
"2 1 2318 16659 23202 XOR";
"2 1 2320 16659 23200 XOR";
"2 1 2319 16659 23201 XOR";
"2 1 2316 16659 23204 XOR";
"2 1 2311 16659 23209 XOR";
"2 1 2312 16659 23208 XOR";
"2 1 2314 16659 23206 XOR";
"2 1 2313 16659 23207 XOR";
"2 1 2310 16659 23210 XOR";
"2 1 2305 16659 23215 XOR";
"2 1 2306 16659 23214 XOR";
"2 1 2308 16659 23212 XOR";
"2 1 2307 16659 23213 XOR";
"2 1 2304 16659 23216 XOR";
"2 1 2299 16659 23221 XOR";
"2 1 2300 16659 23220 XOR";
"2 1 2302 16659 23218 XOR";
"2 1 2301 16659 23219 XOR";
"2 1 2298 16659 23222 XOR";
"2 1 2293 16659 23227 XOR";
"2 1 2294 16659 23226 XOR";
"2 1 2296 16659 23224 XOR";
"2 1 2295 16659 23225 XOR";
"2 1 2292 16659 23228 XOR";
"2 1 2287 16659 23233 XOR";
"2 1 2288 16659 23232 XOR";
"2 1 2290 16659 23230 XOR";
"2 1 2289 16659 23231 XOR";
"2 1 2286 16659 23234 XOR";
"2 1 2285 16659 23235 XOR";
"2 1 16659 4535 17543 AND";
"2 1 10095 10094 10093 AND";
"2 1 10093 23066 23067 XOR";
"2 1 23130 23067 2388 XOR";
"2 1 16955 23067 10091 XOR";
"2 1 23194 23067 10092 XOR";
"2 1 10092 10091 10090 AND";
"2 1 10090 23067 23068 XOR";
"2 1 23131 23068 2387 XOR";
"2 1 23195 23068 10089 XOR";
"2 1 2388 16956 22942 XOR";
"2 1 2387 16957 22943 XOR";
"2 1 16956 23068 10088 XOR";
"2 1 10089 10088 10087 AND";
"2 1 10087 23068 23069 XOR";
"2 1 23196 23069 10086 XOR";
"2 1 23132 23069 2386 XOR";
"2 1 16957 23069 10085 XOR";
"2 1 10086 10085 10084 AND";
"2 1 10084 23069 23070 XOR";
"2 1 16958 23070 10082 XOR";
"2 1 23197 23070 10083 XOR";
"2 1 10083 10082 10081 AND";
"2 1 10081 23070 23071 XOR";
"2 1 23134 23071 2384 XOR";
"2 1 16959 23071 10079 XOR";
"2 1 23198 23071 10080 XOR";
"2 1 10080 10079 10078 AND";
"2 1 10078 23071 23072 XOR";
"2 1 23135 23072 2383 XOR";
"2 1 23199 23072 10077 XOR";
"2 1 16960 23072 10076 XOR";
"2 1 2386 16958 22944 XOR";
"2 1 2384 16960 22946 XOR";
"2 1 2383 16961 22947 XOR";
"2 1 10077 10076 10075 AND";
"2 1 10075 23072 23073 XOR";
"2 1 23136 23073 2382 XOR";
"2 1 16961 23073 10073 XOR";
"2 1 23200 23073 10074 XOR";
"2 1 10074 10073 10072 AND";
"2 1 10072 23073 23074 XOR";
"2 1 23137 23074 2381 XOR";
"2 1 23201 23074 10071 XOR";
"2 1 16962 23074 10070 XOR";
"2 1 10071 10070 10069 AND";
"2 1 10069 23074 23075 XOR";
"2 1 23202 23075 10068 XOR";
"2 1 23138 23075 2380 XOR";
"2 1 16963 23075 10067 XOR";
"2 1 10068 10067 10066 AND";
"2 1 10066 23075 23076 XOR";
"2 1 16964 23076 10064 XOR";
"2 1 23203 23076 10065 XOR";
"2 1 10065 10064 10063 AND";
"2 1 10063 23076 23077 XOR";
"2 1 23140 23077 2378 XOR";
"2 1 16965 23077 10061 XOR";
"2 1 23204 23077 10062 XOR";
"2 1 10062 10061 10060 AND";
"2 1 10060 23077 23078 XOR";
"2 1 23141 23078 2377 XOR";
"2 1 23205 23078 10059 XOR";
"2 1 16966 23078 10058 XOR";
"2 1 23139 23076 2379 XOR";
"2 1 10059 10058 10057 AND";
"2 1 10057 23078 23079 XOR";
"2 1 16967 23079 10055 XOR";
"2 1 23206 23079 10056 XOR";
"2 1 10056 10055 10054 AND";
"2 1 10054 23079 23080 XOR";
"2 1 23143 23080 2375 XOR";
"2 1 23207 23080 10053 XOR";
"2 1 23142 23079 2376 XOR";
"2 1 2382 16962 22948 XOR";
"2 1 2381 16963 22949 XOR";
"2 1 2380 16964 22950 XOR";
"2 1 2379 16965 22951 XOR";
"2 1 2378 16966 22952 XOR";
"2 1 2377 16967 22953 XOR";
"2 1 2376 16968 22954 XOR";
"2 1 2375 16969 22955 XOR";
"2 1 16968 23080 10052 XOR";
"2 1 10053 10052 10051 AND";
"2 1 10051 23080 23081 XOR";
"2 1 23208 23081 10050 XOR";
"2 1 23144 23081 2374 XOR";
"2 1 16969 23081 10049 XOR";
"2 1 10050 10049 10048 AND";
"2 1 10048 23081 23082 XOR";
"2 1 16970 23082 10046 XOR";
"2 1 23209 23082 10047 XOR";
"2 1 2374 16970 22956 XOR";
"2 1 10047 10046 10045 AND";
"2 1 10045 23082 23083 XOR";
"2 1 23146 23083 2372 XOR";
"2 1 16971 23083 10043 XOR";
"2 1 23210 23083 10044 XOR";
"2 1 10044 10043 10042 AND";
"2 1 10042 23083 23084 XOR";
"2 1 23147 23084 2371 XOR";
"2 1 23211 23084 10041 XOR";
"2 1 16972 23084 10040 XOR";
"2 1 10041 10040 10039 AND";
"2 1 10039 23084 23085 XOR";
"2 1 23212 23085 10038 XOR";
"2 1 16973 23085 10037 XOR";
"2 1 23148 23085 2370 XOR";
"2 1 2372 16972 22958 XOR";
"2 1 2371 16973 22959 XOR";
"2 1 2370 16974 22960 XOR";
"2 1 10038 10037 10036 AND";
"2 1 10036 23085 23086 XOR";
"2 1 16974 23086 10034 XOR";
"2 1 23213 23086 10035 XOR";
"2 1 23149 23086 2369 XOR";
"2 1 10035 10034 10033 AND";
"2 1 10033 23086 23087 XOR";
"2 1 23214 23087 10032 XOR";
"2 1 16975 23087 10031 XOR";
"2 1 10032 10031 10030 AND";
"2 1 23150 23087 2368 XOR";
"2 1 10030 23087 23088 XOR";
"2 1 23215 23088 10029 XOR";
"2 1 23151 23088 2367 XOR";
"2 1 16976 23088 10028 XOR";
"2 1 10029 10028 10027 AND";
"2 1 10027 23088 23089 XOR";
"2 1 23216 23089 10026 XOR";
"2 1 23152 23089 2366 XOR";
"2 1 16977 23089 10025 XOR";
"2 1 2369 16975 22961 XOR";
"2 1 2368 16976 22962 XOR";
"2 1 2367 16977 22963 XOR";
"2 1 2366 16978 22964 XOR";
"2 1 10026 10025 10024 AND";
"2 1 10024 23089 23090 XOR";
"2 1 16978 23090 10022 XOR";
"2 1 23217 23090 10023 XOR";
"2 1 10023 10022 10021 AND";
"2 1 10021 23090 23091 XOR";
"2 1 23218 23091 10020 XOR";
"2 1 23154 23091 2364 XOR";
"2 1 16979 23091 10019 XOR";
"2 1 10020 10019 10018 AND";
"2 1 10018 23091 23092 XOR";
"2 1 23219 23092 10017 XOR";
"2 1 23155 23092 2363 XOR";
"2 1 23153 23090 2365 XOR";
"2 1 2365 16979 22965 XOR";
"2 1 2364 16980 22966 XOR";
"2 1 2363 16981 22967 XOR";
"2 1 16980 23092 10016 XOR";
"2 1 10017 10016 10015 AND";
"2 1 10015 23092 23093 XOR";
"2 1 23220 23093 10014 XOR";
"2 1 16981 23093 10013 XOR";
"2 1 10014 10013 10012 AND";
"2 1 10012 23093 23094 XOR";
"2 1 23157 23094 2361 XOR";
"2 1 23156 23093 2362 XOR";
"2 1 16982 23094 10010 XOR";
"2 1 23221 23094 10011 XOR";
"2 1 10011 10010 10009 AND";
"2 1 10009 23094 23095 XOR";
"2 1 23222 23095 10008 XOR";
"2 1 23158 23095 2360 XOR";
"2 1 2362 16982 22968 XOR";
"2 1 2361 16983 22969 XOR";
"2 1 2360 16984 22970 XOR";
"2 1 16983 23095 10007 XOR";
"2 1 10008 10007 10006 AND";
"2 1 10006 23095 23096 XOR";
"2 1 23223 23096 10005 XOR";
"2 1 16984 23096 10004 XOR";
"2 1 10005 10004 10003 AND";
"2 1 10003 23096 23097 XOR";
"2 1 16985 23097 10001 XOR";
"2 1 23224 23097 10002 XOR";
"2 1 23160 23097 2358 XOR";
"2 1 10002 10001 10000 AND";
"2 1 10000 23097 23098 XOR";
"2 1 16986 23098 9998 XOR";
"2 1 23161 23098 2357 XOR";
"2 1 23225 23098 9999 XOR";
"2 1 9999 9998 9997 AND";
"2 1 9997 23098 23099 XOR";
"2 1 16987 23099 9995 XOR";
"2 1 23159 23096 2359 XOR";
"2 1 23226 23099 9996 XOR";
"2 1 9996 9995 9994 AND";
"2 1 23162 23099 2356 XOR";
"2 1 2359 16985 22971 XOR";
"2 1 2358 16986 22972 XOR";
"2 1 2357 16987 22973 XOR";
"2 1 2356 16988 22974 XOR";
"2 1 9994 23099 23100 XOR";
"2 1 16988 23100 9992 XOR";
"2 1 23163 23100 2355 XOR";
"2 1 23227 23100 9993 XOR";
"2 1 9993 9992 9991 AND";
"2 1 9991 23100 23101 XOR";
"2 1 23164 23101 2354 XOR";
"2 1 16989 23101 9989 XOR";
"2 1 23228 23101 9990 XOR";
"2 1 9990 9989 9988 AND";
"2 1 9988 23101 23102 XOR";
"2 1 23165 23102 2353 XOR";
"2 1 23229 23102 9987 XOR";
"2 1 16990 23102 9986 XOR";
"2 1 9987 9986 9985 AND";
"2 1 9985 23102 23103 XOR";
"2 1 16991 23103 9983 XOR";
"2 1 23166 23103 2352 XOR";
"2 1 23230 23103 9984 XOR";
"2 1 9984 9983 9982 AND";
"2 1 9982 23103 23104 XOR";
"2 1 23167 23104 2351 XOR";
"2 1 23231 23104 9981 XOR";
"2 1 16992 23104 9980 XOR";
"2 1 9981 9980 9979 AND";
"2 1 2355 16989 22975 XOR";
"2 1 2354 16990 22976 XOR";
"2 1 2353 16991 22977 XOR";
"2 1 2352 16992 22978 XOR";
"2 1 2351 16993 22979 XOR";
"2 1 9979 23104 23105 XOR";
"2 1 16993 23105 9977 XOR";
"2 1 23232 23105 9978 XOR";
"2 1 9978 9977 9976 AND";
"2 1 9976 23105 23106 XOR";
"2 1 16994 23106 9974 XOR";
"2 1 23169 23106 2349 XOR";
"2 1 23233 23106 9975 XOR";
"2 1 9975 9974 9973 AND";
"2 1 9973 23106 23107 XOR";
"2 1 16995 23107 9971 XOR";
"2 1 23234 23107 9972 XOR";
"2 1 9972 9971 9970 AND";
"2 1 9970 23107 23108 XOR";
"2 1 23168 23105 2350 XOR";
"2 1 23170 23107 2348 XOR";
"2 1 23171 23108 2347 XOR";
"2 1 23235 23108 9969 XOR";
"2 1 16996 23108 9968 XOR";
"2 1 9969 9968 9967 AND";
"2 1 9967 23108 23109 XOR";
"2 1 23172 23109 2346 XOR";
"2 1 2350 16994 22980 XOR";
"2 1 2349 16995 22981 XOR";
"2 1 2348 16996 22982 XOR";
"2 1 2347 16997 22983 XOR";
"2 1 2346 16998 22984 XOR";
"2 1 16997 23109 9965 XOR";
"2 1 23127 23064 2391 XOR";
"2 1 2391 16953 22939 XOR";
"2 1 2275 16659 23245 XOR";
"2 1 2279 16659 23241 XOR";
"2 1 23133 23070 2385 XOR";
"2 1 2385 16959 22945 XOR";
"2 1 23145 23082 2373 XOR";
"2 1 2373 16971 22957 XOR";
"2 1 2284 16659 23236 XOR";
"2 1 23236 23109 9966 XOR";
"2 1 9966 9965 9964 AND";
"2 1 9964 23109 23110 XOR";
"2 1 23237 23110 9963 XOR";
"2 1 16998 23110 9962 XOR";
"2 1 9963 9962 9961 AND";
"2 1 9961 23110 23111 XOR";
"2 1 23238 23111 9960 XOR";
"2 1 23174 23111 2344 XOR";
"2 1 16999 23111 9959 XOR";
"2 1 9960 9959 9958 AND";
"2 1 9958 23111 23112 XOR";
"2 1 23239 23112 9957 XOR";
"2 1 17000 23112 9956 XOR";
"2 1 9957 9956 9955 AND";
"2 1 9955 23112 23113 XOR";
"2 1 23176 23113 2342 XOR";
"2 1 2342 17002 22988 XOR";
"2 1 2344 17000 22986 XOR";
"2 1 23175 23112 2343 XOR";
"2 1 2343 17001 22987 XOR";
"2 1 23173 23110 2345 XOR";
"2 1 2345 16999 22985 XOR";
"2 1 23240 23113 9954 XOR";
"2 1 17001 23113 9953 XOR";
"2 1 9954 9953 9952 AND";
"2 1 9952 23113 23114 XOR";
"2 1 23241 23114 9951 XOR";
"2 1 23177 23114 2341 XOR";
"2 1 17002 23114 9950 XOR";
"2 1 2341 17003 22989 XOR";
"2 1 9951 9950 9949 AND";
"2 1 9949 23114 23115 XOR";
"2 1 23178 23115 2340 XOR";
"2 1 17003 23115 9947 XOR";
"2 1 2340 17004 22990 XOR";
"2 1 23242 23115 9948 XOR";
"2 1 9948 9947 9946 AND";
"2 1 9946 23115 23116 XOR";
"2 1 23179 23116 2339 XOR";
"2 1 23243 23116 9945 XOR";
"2 1 17004 23116 9944 XOR";
"2 1 9945 9944 9943 AND";
"2 1 9943 23116 23117 XOR";
"2 1 17005 23117 9941 XOR";
"2 1 23244 23117 9942 XOR";
"2 1 9942 9941 9940 AND";
"2 1 2339 17005 22991 XOR";
"2 1 23180 23117 2338 XOR";
"2 1 2338 17006 22992 XOR";
"2 1 9940 23117 23118 XOR";
"2 1 17006 23118 9938 XOR";
"2 1 23245 23118 9939 XOR";
"2 1 9939 9938 9937 AND";
"2 1 9937 23118 23119 XOR";
"2 1 23182 23119 2336 XOR";
"2 1 23246 23119 9936 XOR";
"2 1 2336 17008 22994 XOR";
"2 1 23181 23118 2337 XOR";
"2 1 2337 17007 22993 XOR";
"2 1 17007 23119 9935 XOR";
"2 1 9936 9935 9934 AND";
"2 1 9934 23119 23120 XOR";
"2 1 23183 23120 2335 XOR";
"2 1 2335 17009 22995 XOR";
"2 1 23247 23120 9933 XOR";
"2 1 17008 23120 9932 XOR";
"2 1 9933 9932 9931 AND";
"2 1 9931 23120 23121 XOR";
"2 1 23184 23121 164 XOR";
"1 1 164 16658 INV";
"2 1 2339 16658 23055 XOR";
"2 1 2338 16658 23056 XOR";
"2 1 2395 16658 22999 XOR";
"2 1 2389 16658 23005 XOR";
"2 1 2383 16658 23011 XOR";
"2 1 2377 16658 23017 XOR";
"2 1 2371 16658 23023 XOR";
"2 1 2365 16658 23029 XOR";
"2 1 2359 16658 23035 XOR";
"2 1 2353 16658 23041 XOR";
"2 1 2337 16658 23057 XOR";
"2 1 2345 16658 23049 XOR";
"2 1 2340 16658 23054 XOR";
"2 1 2341 16658 23053 XOR";
"2 1 2336 16658 23058 XOR";
"2 1 2397 16658 22997 XOR";
"2 1 16847 16658 22996 XOR";
"2 1 2396 16658 22998 XOR";
"2 1 2391 16658 23003 XOR";
"2 1 2392 16658 23002 XOR";
"2 1 2394 16658 23000 XOR";
"2 1 2393 16658 23001 XOR";
"2 1 2390 16658 23004 XOR";
"2 1 2385 16658 23009 XOR";
"2 1 2386 16658 23008 XOR";
"2 1 2388 16658 23006 XOR";
"2 1 2387 16658 23007 XOR";
"2 1 2384 16658 23010 XOR";
"2 1 2379 16658 23015 XOR";
"2 1 2380 16658 23014 XOR";
"2 1 2382 16658 23012 XOR";
"2 1 2381 16658 23013 XOR";
"2 1 2378 16658 23016 XOR";
"2 1 2373 16658 23021 XOR";
"2 1 2374 16658 23020 XOR";
"2 1 2376 16658 23018 XOR";
"2 1 2375 16658 23019 XOR";
"2 1 2372 16658 23022 XOR";
"2 1 2367 16658 23027 XOR";
"2 1 2368 16658 23026 XOR";
"2 1 2370 16658 23024 XOR";
"2 1 2369 16658 23025 XOR";
"2 1 2366 16658 23028 XOR";
"2 1 2361 16658 23033 XOR";
"2 1 2362 16658 23032 XOR";
"2 1 2364 16658 23030 XOR";
"2 1 2363 16658 23031 XOR";
"2 1 2360 16658 23034 XOR";
"2 1 2355 16658 23039 XOR";
"2 1 2356 16658 23038 XOR";
"2 1 2358 16658 23036 XOR";
"2 1 2357 16658 23037 XOR";
"2 1 2354 16658 23040 XOR";
"2 1 2349 16658 23045 XOR";
"2 1 2350 16658 23044 XOR";
"2 1 2352 16658 23042 XOR";
"2 1 2351 16658 23043 XOR";
"2 1 2348 16658 23046 XOR";
"2 1 16658 4535 17542 AND";
"2 1 2346 16658 23048 XOR";
"2 1 2344 16658 23050 XOR";
"2 1 2342 16658 23052 XOR";
"2 1 22996 16946 22870 AND";
"2 1 22933 22870 2459 XOR";
"2 1 16947 22870 9929 XOR";
"2 1 22997 22870 9930 XOR";
"2 1 9930 9929 9928 AND";
"2 1 9928 22870 22871 XOR";
"2 1 22934 22871 2458 XOR";
"2 1 22998 22871 9927 XOR";
"2 1 16948 22871 9926 XOR";
"2 1 9927 9926 9925 AND";
"2 1 9925 22871 22872 XOR";
"2 1 22935 22872 2457 XOR";
"2 1 16949 22872 9923 XOR";
"2 1 22999 22872 9924 XOR";
"2 1 9924 9923 9922 AND";
"2 1 9922 22872 22873 XOR";
"2 1 16950 22873 9920 XOR";
"2 1 22936 22873 2456 XOR";
"2 1 23000 22873 9921 XOR";
"2 1 9921 9920 9919 AND";
"2 1 9919 22873 22874 XOR";
"2 1 23001 22874 9918 XOR";
"2 1 22937 22874 2455 XOR";
"2 1 16951 22874 9917 XOR";
"2 1 9918 9917 9916 AND";
"2 1 9916 22874 22875 XOR";
"2 1 16952 22875 9914 XOR";
"2 1 23002 22875 9915 XOR";
"2 1 9915 9914 9913 AND";
"2 1 9913 22875 22876 XOR";
"2 1 22939 22876 2453 XOR";
"2 1 16953 22876 9911 XOR";
"2 1 23003 22876 9912 XOR";
"2 1 9912 9911 9910 AND";
"2 1 22938 22875 2454 XOR";
"2 1 9910 22876 22877 XOR";
"2 1 22940 22877 2452 XOR";
"2 1 23004 22877 9909 XOR";
"2 1 16954 22877 9908 XOR";
"2 1 9909 9908 9907 AND";
"2 1 9907 22877 22878 XOR";
"2 1 22941 22878 2451 XOR";
"2 1 16955 22878 9905 XOR";
"2 1 23005 22878 9906 XOR";
"2 1 9906 9905 9904 AND";
"2 1 9904 22878 22879 XOR";
"2 1 22942 22879 2450 XOR";
"2 1 23006 22879 9903 XOR";
"2 1 16956 22879 9902 XOR";
"2 1 9903 9902 9901 AND";
"2 1 9901 22879 22880 XOR";
"2 1 23007 22880 9900 XOR";
"2 1 22943 22880 2449 XOR";
"2 1 16957 22880 9899 XOR";
"2 1 9900 9899 9898 AND";
"2 1 9898 22880 22881 XOR";
"2 1 16958 22881 9896 XOR";
"2 1 23008 22881 9897 XOR";
"2 1 9897 9896 9895 AND";
"2 1 9895 22881 22882 XOR";
"2 1 22945 22882 2447 XOR";
"2 1 16959 22882 9893 XOR";
"2 1 23009 22882 9894 XOR";
"2 1 9894 9893 9892 AND";
"2 1 22944 22881 2448 XOR";
"2 1 9892 22882 22883 XOR";
"2 1 22946 22883 2446 XOR";
"2 1 23010 22883 9891 XOR";
"2 1 16960 22883 9890 XOR";
"2 1 9891 9890 9889 AND";
"2 1 9889 22883 22884 XOR";
"2 1 22947 22884 2445 XOR";
"2 1 16961 22884 9887 XOR";
"2 1 23011 22884 9888 XOR";
"2 1 9888 9887 9886 AND";
"2 1 9886 22884 22885 XOR";
"2 1 22948 22885 2444 XOR";
"2 1 23012 22885 9885 XOR";
"2 1 16962 22885 9884 XOR";
"2 1 9885 9884 9883 AND";
"2 1 9883 22885 22886 XOR";
"2 1 23013 22886 9882 XOR";
"2 1 22949 22886 2443 XOR";
"2 1 16963 22886 9881 XOR";
"2 1 9882 9881 9880 AND";
"2 1 9880 22886 22887 XOR";
"2 1 16964 22887 9878 XOR";
"2 1 23014 22887 9879 XOR";
"2 1 9879 9878 9877 AND";
"2 1 9877 22887 22888 XOR";
"2 1 22951 22888 2441 XOR";
"2 1 16965 22888 9875 XOR";
"2 1 23015 22888 9876 XOR";
"2 1 9876 9875 9874 AND";
"2 1 22950 22887 2442 XOR";
"2 1 2459 16948 22745 XOR";
"2 1 2458 16949 22746 XOR";
"2 1 2457 16950 22747 XOR";
"2 1 2456 16951 22748 XOR";
"2 1 2455 16952 22749 XOR";
"2 1 2454 16953 22750 XOR";
"2 1 2453 16954 22751 XOR";
"2 1 2452 16955 22752 XOR";
"2 1 2451 16956 22753 XOR";
"2 1 2450 16957 22754 XOR";
"2 1 2449 16958 22755 XOR";
"2 1 2448 16959 22756 XOR";
"2 1 2447 16960 22757 XOR";
"2 1 2446 16961 22758 XOR";
"2 1 2445 16962 22759 XOR";
"2 1 2444 16963 22760 XOR";
"2 1 2443 16964 22761 XOR";
"2 1 2442 16965 22762 XOR";
"2 1 2441 16966 22763 XOR";
"2 1 9874 22888 22889 XOR";
"2 1 22952 22889 2440 XOR";
"2 1 23016 22889 9873 XOR";
"2 1 16966 22889 9872 XOR";
"2 1 9873 9872 9871 AND";
"2 1 9871 22889 22890 XOR";
"2 1 23017 22890 9870 XOR";
"2 1 22953 22890 2439 XOR";
"2 1 2440 16967 22764 XOR";
"2 1 2439 16968 22765 XOR";
"2 1 16967 22890 9869 XOR";
"2 1 9870 9869 9868 AND";
"2 1 9868 22890 22891 XOR";
"2 1 16968 22891 9866 XOR";
"2 1 22954 22891 2438 XOR";
"2 1 23018 22891 9867 XOR";
"2 1 9867 9866 9865 AND";
"2 1 9865 22891 22892 XOR";
"2 1 22955 22892 2437 XOR";
"2 1 16969 22892 9863 XOR";
"2 1 23019 22892 9864 XOR";
"2 1 9864 9863 9862 AND";
"2 1 9862 22892 22893 XOR";
"2 1 22956 22893 2436 XOR";
"2 1 16970 22893 9860 XOR";
"2 1 23020 22893 9861 XOR";
"2 1 9861 9860 9859 AND";
"2 1 2438 16969 22766 XOR";
"2 1 2437 16970 22767 XOR";
"2 1 2436 16971 22768 XOR";
"2 1 9859 22893 22894 XOR";
"2 1 16971 22894 9857 XOR";
"2 1 22957 22894 2435 XOR";
"2 1 23021 22894 9858 XOR";
"2 1 9858 9857 9856 AND";
"2 1 9856 22894 22895 XOR";
"2 1 22958 22895 2434 XOR";
"2 1 16972 22895 9854 XOR";
"2 1 23022 22895 9855 XOR";
"2 1 9855 9854 9853 AND";
"2 1 9853 22895 22896 XOR";
"2 1 23023 22896 9852 XOR";
"2 1 22959 22896 2433 XOR";
"2 1 16973 22896 9851 XOR";
"2 1 9852 9851 9850 AND";
"2 1 9850 22896 22897 XOR";
"2 1 16974 22897 9848 XOR";
"2 1 22960 22897 2432 XOR";
"2 1 23024 22897 9849 XOR";
"2 1 9849 9848 9847 AND";
"2 1 9847 22897 22898 XOR";
"2 1 16975 22898 9845 XOR";
"2 1 23025 22898 9846 XOR";
"2 1 9846 9845 9844 AND";
"2 1 9844 22898 22899 XOR";
"2 1 22962 22899 2430 XOR";
"2 1 23026 22899 9843 XOR";
"2 1 16976 22899 9842 XOR";
"2 1 9843 9842 9841 AND";
"2 1 9841 22899 22900 XOR";
"2 1 22963 22900 2429 XOR";
"2 1 23027 22900 9840 XOR";
"2 1 16977 22900 9839 XOR";
"2 1 9840 9839 9838 AND";
"2 1 9838 22900 22901 XOR";
"2 1 16978 22901 9836 XOR";
"2 1 23028 22901 9837 XOR";
"2 1 9837 9836 9835 AND";
"2 1 9835 22901 22902 XOR";
"2 1 22965 22902 2427 XOR";
"2 1 23029 22902 9834 XOR";
"2 1 22964 22901 2428 XOR";
"2 1 16979 22902 9833 XOR";
"2 1 9834 9833 9832 AND";
"2 1 9832 22902 22903 XOR";
"2 1 16980 22903 9830 XOR";
"2 1 22966 22903 2426 XOR";
"2 1 23030 22903 9831 XOR";
"2 1 9831 9830 9829 AND";
"2 1 9829 22903 22904 XOR";
"2 1 22967 22904 2425 XOR";
"2 1 16981 22904 9827 XOR";
"2 1 23031 22904 9828 XOR";
"2 1 9828 9827 9826 AND";
"2 1 9826 22904 22905 XOR";
"2 1 16982 22905 9824 XOR";
"2 1 23032 22905 9825 XOR";
"2 1 9825 9824 9823 AND";
"2 1 9823 22905 22906 XOR";
"2 1 22969 22906 2423 XOR";
"2 1 22968 22905 2424 XOR";
"2 1 16983 22906 9821 XOR";
"2 1 23033 22906 9822 XOR";
"2 1 9822 9821 9820 AND";
"2 1 2435 16972 22769 XOR";
"2 1 2434 16973 22770 XOR";
"2 1 2433 16974 22771 XOR";
"2 1 2432 16975 22772 XOR";
"2 1 2430 16977 22774 XOR";
"2 1 2429 16978 22775 XOR";
"2 1 2428 16979 22776 XOR";
"2 1 2427 16980 22777 XOR";
"2 1 2426 16981 22778 XOR";
"2 1 2425 16982 22779 XOR";
"2 1 2424 16983 22780 XOR";
"2 1 2423 16984 22781 XOR";
"2 1 9820 22906 22907 XOR";
"2 1 23034 22907 9819 XOR";
"2 1 16984 22907 9818 XOR";
"2 1 22970 22907 2422 XOR";
"2 1 2422 16985 22782 XOR";
"2 1 22961 22898 2431 XOR";
"2 1 2431 16976 22773 XOR";
"2 1 9819 9818 9817 AND";
"2 1 9817 22907 22908 XOR";
"2 1 23035 22908 9816 XOR";
"2 1 22971 22908 2421 XOR";
"2 1 16985 22908 9815 XOR";
"2 1 9816 9815 9814 AND";
"2 1 9814 22908 22909 XOR";
"2 1 22972 22909 2420 XOR";
"2 1 23036 22909 9813 XOR";
"2 1 2421 16986 22783 XOR";
"2 1 2420 16987 22784 XOR";
"2 1 16986 22909 9812 XOR";
"2 1 9813 9812 9811 AND";
"2 1 9811 22909 22910 XOR";
"2 1 22973 22910 2419 XOR";
"2 1 23037 22910 9810 XOR";
"2 1 16987 22910 9809 XOR";
"2 1 9810 9809 9808 AND";
"2 1 9808 22910 22911 XOR";
"2 1 22974 22911 2418 XOR";
"2 1 16988 22911 9806 XOR";
"2 1 23038 22911 9807 XOR";
"2 1 9807 9806 9805 AND";
"2 1 9805 22911 22912 XOR";
"2 1 22975 22912 2417 XOR";
"2 1 16989 22912 9803 XOR";
"2 1 23039 22912 9804 XOR";
"2 1 9804 9803 9802 AND";
"2 1 9802 22912 22913 XOR";
"2 1 22976 22913 2416 XOR";
"2 1 23040 22913 9801 XOR";
"2 1 16990 22913 9800 XOR";
"2 1 2419 16988 22785 XOR";
"2 1 2418 16989 22786 XOR";
"2 1 2417 16990 22787 XOR";
"2 1 2416 16991 22788 XOR";
"2 1 9801 9800 9799 AND";
"2 1 9799 22913 22914 XOR";
"2 1 23041 22914 9798 XOR";
"2 1 22977 22914 2415 XOR";
"2 1 16991 22914 9797 XOR";
"2 1 9798 9797 9796 AND";
"2 1 9796 22914 22915 XOR";
"2 1 16992 22915 9794 XOR";
"2 1 22978 22915 2414 XOR";
"2 1 23042 22915 9795 XOR";
"2 1 9795 9794 9793 AND";
"2 1 9793 22915 22916 XOR";
"2 1 16993 22916 9791 XOR";
"2 1 23043 22916 9792 XOR";
"2 1 9792 9791 9790 AND";
"2 1 22979 22916 2413 XOR";
"2 1 2415 16992 22789 XOR";
"2 1 2414 16993 22790 XOR";
"2 1 2413 16994 22791 XOR";
"2 1 9790 22916 22917 XOR";
"2 1 22980 22917 2412 XOR";
"2 1 16994 22917 9788 XOR";
"2 1 23044 22917 9789 XOR";
"2 1 2412 16995 22792 XOR";
"2 1 9789 9788 9787 AND";
"2 1 9787 22917 22918 XOR";
"2 1 16995 22918 9785 XOR";
"2 1 22981 22918 2411 XOR";
"2 1 2411 16996 22793 XOR";
"2 1 23045 22918 9786 XOR";
"2 1 9786 9785 9784 AND";
"2 1 9784 22918 22919 XOR";
"2 1 23046 22919 9783 XOR";
"2 1 16996 22919 9782 XOR";
"2 1 9783 9782 9781 AND";
"2 1 9781 22919 22920 XOR";
"2 1 22983 22920 2409 XOR";
"2 1 16997 22920 9779 XOR";
"2 1 2409 16998 22795 XOR";
"2 1 22982 22919 2410 XOR";
"2 1 2410 16997 22794 XOR";
"2 1 2343 16658 23051 XOR";
"2 1 2347 16658 23047 XOR";
"2 1 23047 22920 9780 XOR";
"2 1 9780 9779 9778 AND";
"2 1 9778 22920 22921 XOR";
"2 1 23048 22921 9777 XOR";
"2 1 22984 22921 2408 XOR";
"2 1 16998 22921 9776 XOR";
"2 1 9777 9776 9775 AND";
"2 1 2408 16999 22796 XOR";
"2 1 9775 22921 22922 XOR";
"2 1 23049 22922 9774 XOR";
"2 1 22985 22922 2407 XOR";
"2 1 16999 22922 9773 XOR";
"2 1 9774 9773 9772 AND";
"2 1 9772 22922 22923 XOR";
"2 1 17000 22923 9770 XOR";
"2 1 23050 22923 9771 XOR";
"2 1 22986 22923 2406 XOR";
"2 1 9771 9770 9769 AND";
"2 1 9769 22923 22924 XOR";
"2 1 17001 22924 9767 XOR";
"2 1 22987 22924 2405 XOR";
"2 1 2406 17001 22798 XOR";
"2 1 2405 17002 22799 XOR";
"2 1 2407 17000 22797 XOR";
"2 1 23051 22924 9768 XOR";
"2 1 9768 9767 9766 AND";
"2 1 9766 22924 22925 XOR";
"2 1 22988 22925 2404 XOR";
"2 1 23052 22925 9765 XOR";
"2 1 17002 22925 9764 XOR";
"2 1 9765 9764 9763 AND";
"2 1 9763 22925 22926 XOR";
"2 1 17003 22926 9761 XOR";
"2 1 23053 22926 9762 XOR";
"2 1 22989 22926 2403 XOR";
"2 1 9762 9761 9760 AND";
"2 1 9760 22926 22927 XOR";
"2 1 23054 22927 9759 XOR";
"2 1 17004 22927 9758 XOR";
"2 1 9759 9758 9757 AND";
"2 1 2403 17004 22801 XOR";
"2 1 2404 17003 22800 XOR";
"2 1 9757 22927 22928 XOR";
"2 1 22991 22928 2401 XOR";
"2 1 23055 22928 9756 XOR";
"2 1 17005 22928 9755 XOR";
"2 1 9756 9755 9754 AND";
"2 1 2401 17006 22803 XOR";
"2 1 9754 22928 22929 XOR";
"2 1 23056 22929 9753 XOR";
"2 1 17006 22929 9752 XOR";
"2 1 9753 9752 9751 AND";
"2 1 9751 22929 22930 XOR";
"2 1 22993 22930 2399 XOR";
"2 1 17007 22930 9749 XOR";
"2 1 23057 22930 9750 XOR";
"2 1 9750 9749 9748 AND";
"2 1 9748 22930 22931 XOR";
"2 1 23058 22931 9747 XOR";
"2 1 17008 22931 9746 XOR";
"2 1 22994 22931 2398 XOR";
"2 1 2398 17009 22806 XOR";
"2 1 2399 17008 22805 XOR";
"2 1 9747 9746 9745 AND";
"2 1 9745 22931 22932 XOR";
"2 1 22995 22932 165 XOR";
"2 1 22992 22929 2400 XOR";
"2 1 2400 17007 22804 XOR";
"1 1 165 16657 INV";
"2 1 2404 16657 22864 XOR";
"2 1 2401 16657 22867 XOR";
"2 1 2400 16657 22868 XOR";
"2 1 2403 16657 22865 XOR";
"2 1 2399 16657 22869 XOR";
"2 1 2458 16657 22810 XOR";
"2 1 2452 16657 22816 XOR";
"2 1 2446 16657 22822 XOR";
"2 1 2440 16657 22828 XOR";
"2 1 2434 16657 22834 XOR";
"2 1 2428 16657 22840 XOR";
"2 1 2422 16657 22846 XOR";
"2 1 2416 16657 22852 XOR";
"2 1 2408 16657 22860 XOR";
"2 1 2407 16657 22861 XOR";
"2 1 2406 16657 22862 XOR";
"2 1 2460 16657 22808 XOR";
"2 1 16846 16657 22807 XOR";
"2 1 22807 16946 22681 AND";
"2 1 22744 22681 2522 XOR";
"2 1 22808 22681 9744 XOR";
"2 1 16947 22681 9743 XOR";
"2 1 9744 9743 9742 AND";
"2 1 9742 22681 22682 XOR";
"2 1 22745 22682 2521 XOR";
"2 1 16948 22682 9740 XOR";
"2 1 2522 16948 22556 XOR";
"2 1 2521 16949 22557 XOR";
"2 1 2459 16657 22809 XOR";
"2 1 22809 22682 9741 XOR";
"2 1 9741 9740 9739 AND";
"2 1 9739 22682 22683 XOR";
"2 1 22746 22683 2520 XOR";
"2 1 22810 22683 9738 XOR";
"2 1 16949 22683 9737 XOR";
"2 1 9738 9737 9736 AND";
"2 1 9736 22683 22684 XOR";
"2 1 22747 22684 2519 XOR";
"2 1 16950 22684 9734 XOR";
"2 1 2520 16950 22558 XOR";
"2 1 2519 16951 22559 XOR";
"2 1 2454 16657 22814 XOR";
"2 1 2455 16657 22813 XOR";
"2 1 2457 16657 22811 XOR";
"2 1 22811 22684 9735 XOR";
"2 1 9735 9734 9733 AND";
"2 1 9733 22684 22685 XOR";
"2 1 16951 22685 9731 XOR";
"2 1 22748 22685 2518 XOR";
"2 1 2518 16952 22560 XOR";
"2 1 2456 16657 22812 XOR";
"2 1 22812 22685 9732 XOR";
"2 1 9732 9731 9730 AND";
"2 1 9730 22685 22686 XOR";
"2 1 22749 22686 2517 XOR";
"2 1 16952 22686 9728 XOR";
"2 1 22813 22686 9729 XOR";
"2 1 9729 9728 9727 AND";
"2 1 9727 22686 22687 XOR";
"2 1 22750 22687 2516 XOR";
"2 1 22814 22687 9726 XOR";
"2 1 16953 22687 9725 XOR";
"2 1 9726 9725 9724 AND";
"2 1 9724 22687 22688 XOR";
"2 1 22751 22688 2515 XOR";
"2 1 16954 22688 9722 XOR";
"2 1 2517 16953 22561 XOR";
"2 1 2516 16954 22562 XOR";
"2 1 2515 16955 22563 XOR";
"2 1 2453 16657 22815 XOR";
"2 1 22815 22688 9723 XOR";
"2 1 9723 9722 9721 AND";
"2 1 9721 22688 22689 XOR";
"2 1 22752 22689 2514 XOR";
"2 1 22816 22689 9720 XOR";
"2 1 16955 22689 9719 XOR";
"2 1 9720 9719 9718 AND";
"2 1 9718 22689 22690 XOR";
"2 1 22753 22690 2513 XOR";
"2 1 16956 22690 9716 XOR";
"2 1 2514 16956 22564 XOR";
"2 1 2513 16957 22565 XOR";
"2 1 2448 16657 22820 XOR";
"2 1 2449 16657 22819 XOR";
"2 1 2451 16657 22817 XOR";
"2 1 22817 22690 9717 XOR";
"2 1 9717 9716 9715 AND";
"2 1 9715 22690 22691 XOR";
"2 1 16957 22691 9713 XOR";
"2 1 22754 22691 2512 XOR";
"2 1 2512 16958 22566 XOR";
"2 1 2450 16657 22818 XOR";
"2 1 22818 22691 9714 XOR";
"2 1 9714 9713 9712 AND";
"2 1 9712 22691 22692 XOR";
"2 1 22755 22692 2511 XOR";
"2 1 16958 22692 9710 XOR";
"2 1 22819 22692 9711 XOR";
"2 1 9711 9710 9709 AND";
"2 1 9709 22692 22693 XOR";
"2 1 22756 22693 2510 XOR";
"2 1 22820 22693 9708 XOR";
"2 1 16959 22693 9707 XOR";
"2 1 9708 9707 9706 AND";
"2 1 9706 22693 22694 XOR";
"2 1 22757 22694 2509 XOR";
"2 1 16960 22694 9704 XOR";
"2 1 2511 16959 22567 XOR";
"2 1 2510 16960 22568 XOR";
"2 1 2509 16961 22569 XOR";
"2 1 2447 16657 22821 XOR";
"2 1 22821 22694 9705 XOR";
"2 1 9705 9704 9703 AND";
"2 1 9703 22694 22695 XOR";
"2 1 22758 22695 2508 XOR";
"2 1 22822 22695 9702 XOR";
"2 1 16961 22695 9701 XOR";
"2 1 9702 9701 9700 AND";
"2 1 9700 22695 22696 XOR";
"2 1 22759 22696 2507 XOR";
"2 1 16962 22696 9698 XOR";
"2 1 2508 16962 22570 XOR";
"2 1 2507 16963 22571 XOR";
"2 1 2442 16657 22826 XOR";
"2 1 2443 16657 22825 XOR";
"2 1 2445 16657 22823 XOR";
"2 1 22823 22696 9699 XOR";
"2 1 9699 9698 9697 AND";
"2 1 9697 22696 22697 XOR";
"2 1 16963 22697 9695 XOR";
"2 1 22760 22697 2506 XOR";
"2 1 2506 16964 22572 XOR";
"2 1 2444 16657 22824 XOR";
"2 1 22824 22697 9696 XOR";
"2 1 9696 9695 9694 AND";
"2 1 9694 22697 22698 XOR";
"2 1 22761 22698 2505 XOR";
"2 1 16964 22698 9692 XOR";
"2 1 22825 22698 9693 XOR";
"2 1 9693 9692 9691 AND";
"2 1 9691 22698 22699 XOR";
"2 1 22762 22699 2504 XOR";
"2 1 22826 22699 9690 XOR";
"2 1 16965 22699 9689 XOR";
"2 1 9690 9689 9688 AND";
"2 1 9688 22699 22700 XOR";
"2 1 22763 22700 2503 XOR";
"2 1 16966 22700 9686 XOR";
"2 1 2505 16965 22573 XOR";
"2 1 2504 16966 22574 XOR";
"2 1 2503 16967 22575 XOR";
"2 1 2441 16657 22827 XOR";
"2 1 22827 22700 9687 XOR";
"2 1 9687 9686 9685 AND";
"2 1 9685 22700 22701 XOR";
"2 1 22764 22701 2502 XOR";
"2 1 22828 22701 9684 XOR";
"2 1 16967 22701 9683 XOR";
"2 1 9684 9683 9682 AND";
"2 1 9682 22701 22702 XOR";
"2 1 22765 22702 2501 XOR";
"2 1 16968 22702 9680 XOR";
"2 1 2502 16968 22576 XOR";
"2 1 2501 16969 22577 XOR";
"2 1 2436 16657 22832 XOR";
"2 1 2437 16657 22831 XOR";
"2 1 2439 16657 22829 XOR";
"2 1 22829 22702 9681 XOR";
"2 1 9681 9680 9679 AND";
"2 1 9679 22702 22703 XOR";
"2 1 16969 22703 9677 XOR";
"2 1 22766 22703 2500 XOR";
"2 1 2500 16970 22578 XOR";
"2 1 2438 16657 22830 XOR";
"2 1 22830 22703 9678 XOR";
"2 1 9678 9677 9676 AND";
"2 1 9676 22703 22704 XOR";
"2 1 22767 22704 2499 XOR";
"2 1 16970 22704 9674 XOR";
"2 1 22831 22704 9675 XOR";
"2 1 9675 9674 9673 AND";
"2 1 9673 22704 22705 XOR";
"2 1 22768 22705 2498 XOR";
"2 1 22832 22705 9672 XOR";
"2 1 16971 22705 9671 XOR";
"2 1 9672 9671 9670 AND";
"2 1 9670 22705 22706 XOR";
"2 1 22769 22706 2497 XOR";
"2 1 16972 22706 9668 XOR";
"2 1 2499 16971 22579 XOR";
"2 1 2498 16972 22580 XOR";
"2 1 2497 16973 22581 XOR";
"2 1 2435 16657 22833 XOR";
"2 1 22833 22706 9669 XOR";
"2 1 9669 9668 9667 AND";
"2 1 9667 22706 22707 XOR";
"2 1 22770 22707 2496 XOR";
"2 1 22834 22707 9666 XOR";
"2 1 16973 22707 9665 XOR";
"2 1 9666 9665 9664 AND";
"2 1 9664 22707 22708 XOR";
"2 1 22771 22708 2495 XOR";
"2 1 16974 22708 9662 XOR";
"2 1 2496 16974 22582 XOR";
"2 1 2495 16975 22583 XOR";
"2 1 2430 16657 22838 XOR";
"2 1 2431 16657 22837 XOR";
"2 1 2433 16657 22835 XOR";
"2 1 22835 22708 9663 XOR";
"2 1 9663 9662 9661 AND";
"2 1 9661 22708 22709 XOR";
"2 1 22772 22709 2494 XOR";
"2 1 2494 16976 22584 XOR";
"2 1 16975 22709 9659 XOR";
"2 1 2432 16657 22836 XOR";
"2 1 22836 22709 9660 XOR";
"2 1 9660 9659 9658 AND";
"2 1 9658 22709 22710 XOR";
"2 1 22773 22710 2493 XOR";
"2 1 16976 22710 9656 XOR";
"2 1 2493 16977 22585 XOR";
"2 1 22837 22710 9657 XOR";
"2 1 9657 9656 9655 AND";
"2 1 9655 22710 22711 XOR";
"2 1 22774 22711 2492 XOR";
"2 1 22838 22711 9654 XOR";
"2 1 16977 22711 9653 XOR";
"2 1 9654 9653 9652 AND";
"2 1 2492 16978 22586 XOR";
"2 1 9652 22711 22712 XOR";
"2 1 16978 22712 9650 XOR";
"2 1 22775 22712 2491 XOR";
"2 1 2491 16979 22587 XOR";
"2 1 2429 16657 22839 XOR";
"2 1 22839 22712 9651 XOR";
"2 1 9651 9650 9649 AND";
"2 1 9649 22712 22713 XOR";
"2 1 22776 22713 2490 XOR";
"2 1 16979 22713 9647 XOR";
"2 1 22840 22713 9648 XOR";
"2 1 2490 16980 22588 XOR";
"2 1 9648 9647 9646 AND";
"2 1 9646 22713 22714 XOR";
"2 1 16980 22714 9644 XOR";
"2 1 22777 22714 2489 XOR";
"2 1 2489 16981 22589 XOR";
"2 1 2424 16657 22844 XOR";
"2 1 2425 16657 22843 XOR";
"2 1 2427 16657 22841 XOR";
"2 1 22841 22714 9645 XOR";
"2 1 9645 9644 9643 AND";
"2 1 9643 22714 22715 XOR";
"2 1 22778 22715 2488 XOR";
"2 1 16981 22715 9641 XOR";
"2 1 2488 16982 22590 XOR";
"2 1 2426 16657 22842 XOR";
"2 1 22842 22715 9642 XOR";
"2 1 9642 9641 9640 AND";
"2 1 9640 22715 22716 XOR";
"2 1 16982 22716 9638 XOR";
"2 1 22843 22716 9639 XOR";
"2 1 9639 9638 9637 AND";
"2 1 9637 22716 22717 XOR";
"2 1 22844 22717 9636 XOR";
"2 1 22779 22716 2487 XOR";
"2 1 16983 22717 9635 XOR";
"2 1 9636 9635 9634 AND";
"2 1 9634 22717 22718 XOR";
"2 1 2487 16983 22591 XOR";
"2 1 22780 22717 2486 XOR";
"2 1 2486 16984 22592 XOR";
"2 1 22781 22718 2485 XOR";
"2 1 2485 16985 22593 XOR";
"2 1 16984 22718 9632 XOR";
"2 1 2423 16657 22845 XOR";
"2 1 22845 22718 9633 XOR";
"2 1 9633 9632 9631 AND";
"2 1 9631 22718 22719 XOR";
"2 1 22846 22719 9630 XOR";
"2 1 16985 22719 9629 XOR";
"2 1 22782 22719 2484 XOR";
"2 1 2484 16986 22594 XOR";
"2 1 9630 9629 9628 AND";
"2 1 9628 22719 22720 XOR";
"2 1 22783 22720 2483 XOR";
"2 1 2483 16987 22595 XOR";
"2 1 16986 22720 9626 XOR";
"2 1 2418 16657 22850 XOR";
"2 1 2419 16657 22849 XOR";
"2 1 2421 16657 22847 XOR";
"2 1 22847 22720 9627 XOR";
"2 1 9627 9626 9625 AND";
"2 1 9625 22720 22721 XOR";
"2 1 22784 22721 2482 XOR";
"2 1 16987 22721 9623 XOR";
"2 1 2482 16988 22596 XOR";
"2 1 2420 16657 22848 XOR";
"2 1 22848 22721 9624 XOR";
"2 1 9624 9623 9622 AND";
"2 1 9622 22721 22722 XOR";
"2 1 16988 22722 9620 XOR";
"2 1 22785 22722 2481 XOR";
"2 1 22849 22722 9621 XOR";
"2 1 9621 9620 9619 AND";
"2 1 9619 22722 22723 XOR";
"2 1 22786 22723 2480 XOR";
"2 1 22850 22723 9618 XOR";
"2 1 2481 16989 22597 XOR";
"2 1 2480 16990 22598 XOR";
"2 1 16989 22723 9617 XOR";
"2 1 9618 9617 9616 AND";
"2 1 9616 22723 22724 XOR";
"2 1 22787 22724 2479 XOR";
"2 1 2479 16991 22599 XOR";
"2 1 16990 22724 9614 XOR";
"2 1 2417 16657 22851 XOR";
"2 1 22851 22724 9615 XOR";
"2 1 9615 9614 9613 AND";
"2 1 9613 22724 22725 XOR";
"2 1 22852 22725 9612 XOR";
"2 1 16991 22725 9611 XOR";
"2 1 9612 9611 9610 AND";
"2 1 9610 22725 22726 XOR";
"2 1 22789 22726 2477 XOR";
"2 1 16992 22726 9608 XOR";
"2 1 2477 16993 22601 XOR";
"2 1 22788 22725 2478 XOR";
"2 1 2478 16992 22600 XOR";
"2 1 2412 16657 22856 XOR";
"2 1 2413 16657 22855 XOR";
"2 1 2415 16657 22853 XOR";
"2 1 22853 22726 9609 XOR";
"2 1 9609 9608 9607 AND";
"2 1 9607 22726 22727 XOR";
"2 1 22790 22727 2476 XOR";
"2 1 16993 22727 9605 XOR";
"2 1 2476 16994 22602 XOR";
"2 1 2414 16657 22854 XOR";
"2 1 22854 22727 9606 XOR";
"2 1 9606 9605 9604 AND";
"2 1 9604 22727 22728 XOR";
"2 1 22791 22728 2475 XOR";
"2 1 2475 16995 22603 XOR";
"2 1 16994 22728 9602 XOR";
"2 1 22855 22728 9603 XOR";
"2 1 9603 9602 9601 AND";
"2 1 9601 22728 22729 XOR";
"2 1 22856 22729 9600 XOR";
"2 1 16995 22729 9599 XOR";
"2 1 22792 22729 2474 XOR";
"2 1 2474 16996 22604 XOR";
"2 1 2411 16657 22857 XOR";
"2 1 16657 4535 17541 AND";
"2 1 2410 16657 22858 XOR";
"2 1 9600 9599 9598 AND";
"2 1 9598 22729 22730 XOR";
"2 1 16996 22730 9596 XOR";
"2 1 22793 22730 2473 XOR";
"2 1 2473 16997 22605 XOR";
"2 1 22857 22730 9597 XOR";
"2 1 9597 9596 9595 AND";
"2 1 9595 22730 22731 XOR";
"2 1 22858 22731 9594 XOR";
"2 1 22794 22731 2472 XOR";
"2 1 2472 16998 22606 XOR";
"2 1 16997 22731 9593 XOR";
"2 1 9594 9593 9592 AND";
"2 1 9592 22731 22732 XOR";
"2 1 22795 22732 2471 XOR";
"2 1 16998 22732 9590 XOR";
"2 1 2471 16999 22607 XOR";
"2 1 2405 16657 22863 XOR";
"2 1 22990 22927 2402 XOR";
"2 1 2402 17005 22802 XOR";
"2 1 2402 16657 22866 XOR";
"2 1 2409 16657 22859 XOR";
"2 1 22859 22732 9591 XOR";
"2 1 9591 9590 9589 AND";
"2 1 9589 22732 22733 XOR";
"2 1 16999 22733 9587 XOR";
"2 1 22860 22733 9588 XOR";
"2 1 9588 9587 9586 AND";
"2 1 9586 22733 22734 XOR";
"2 1 22797 22734 2469 XOR";
"2 1 17000 22734 9584 XOR";
"2 1 2469 17001 22609 XOR";
"2 1 22861 22734 9585 XOR";
"2 1 9585 9584 9583 AND";
"2 1 22796 22733 2470 XOR";
"2 1 2470 17000 22608 XOR";
"2 1 9583 22734 22735 XOR";
"2 1 22798 22735 2468 XOR";
"2 1 17001 22735 9581 XOR";
"2 1 2468 17002 22610 XOR";
"2 1 22862 22735 9582 XOR";
"2 1 9582 9581 9580 AND";
"2 1 9580 22735 22736 XOR";
"2 1 17002 22736 9578 XOR";
"2 1 22799 22736 2467 XOR";
"2 1 2467 17003 22611 XOR";
"2 1 22863 22736 9579 XOR";
"2 1 9579 9578 9577 AND";
"2 1 9577 22736 22737 XOR";
"2 1 22800 22737 2466 XOR";
"2 1 22864 22737 9576 XOR";
"2 1 2466 17004 22612 XOR";
"2 1 17003 22737 9575 XOR";
"2 1 9576 9575 9574 AND";
"2 1 9574 22737 22738 XOR";
"2 1 22865 22738 9573 XOR";
"2 1 22801 22738 2465 XOR";
"2 1 2465 17005 22613 XOR";
"2 1 17004 22738 9572 XOR";
"2 1 9573 9572 9571 AND";
"2 1 9571 22738 22739 XOR";
"2 1 17005 22739 9569 XOR";
"2 1 22802 22739 2464 XOR";
"2 1 2464 17006 22614 XOR";
"2 1 22866 22739 9570 XOR";
"2 1 9570 9569 9568 AND";
"2 1 9568 22739 22740 XOR";
"2 1 22867 22740 9567 XOR";
"2 1 22803 22740 2463 XOR";
"2 1 2463 17007 22615 XOR";
"2 1 17006 22740 9566 XOR";
"2 1 9567 9566 9565 AND";
"2 1 9565 22740 22741 XOR";
"2 1 22804 22741 2462 XOR";
"2 1 2462 17008 22616 XOR";
"2 1 22868 22741 9564 XOR";
"2 1 17007 22741 9563 XOR";
"2 1 9564 9563 9562 AND";
"2 1 9562 22741 22742 XOR";
"2 1 17008 22742 9560 XOR";
"2 1 22805 22742 2461 XOR";
"2 1 22869 22742 9561 XOR";
"2 1 2461 17009 22617 XOR";
"2 1 9561 9560 9559 AND";
"2 1 9559 22742 22743 XOR";
"2 1 22806 22743 166 XOR";
"1 1 166 16656 INV";
"2 1 2470 16656 22672 XOR";
"2 1 2471 16656 22671 XOR";
"2 1 2520 16656 22622 XOR";
"2 1 2514 16656 22628 XOR";
"2 1 2508 16656 22634 XOR";
"2 1 2502 16656 22640 XOR";
"2 1 2496 16656 22646 XOR";
"2 1 2490 16656 22652 XOR";
"2 1 2484 16656 22658 XOR";
"2 1 2478 16656 22664 XOR";
"2 1 2463 16656 22679 XOR";
"2 1 2469 16656 22673 XOR";
"2 1 2465 16656 22677 XOR";
"2 1 2468 16656 22674 XOR";
"2 1 2466 16656 22676 XOR";
"2 1 2522 16656 22620 XOR";
"2 1 2523 16656 22619 XOR";
"2 1 16845 16656 22618 XOR";
"2 1 2521 16656 22621 XOR";
"2 1 2516 16656 22626 XOR";
"2 1 2517 16656 22625 XOR";
"2 1 2519 16656 22623 XOR";
"2 1 2518 16656 22624 XOR";
"2 1 2515 16656 22627 XOR";
"2 1 2510 16656 22632 XOR";
"2 1 2511 16656 22631 XOR";
"2 1 2513 16656 22629 XOR";
"2 1 2512 16656 22630 XOR";
"2 1 2509 16656 22633 XOR";
"2 1 2504 16656 22638 XOR";
"2 1 2505 16656 22637 XOR";
"2 1 2507 16656 22635 XOR";
"2 1 2506 16656 22636 XOR";
"2 1 2503 16656 22639 XOR";
"2 1 2498 16656 22644 XOR";
"2 1 2499 16656 22643 XOR";
"2 1 2501 16656 22641 XOR";
"2 1 2500 16656 22642 XOR";
"2 1 2497 16656 22645 XOR";
"2 1 2492 16656 22650 XOR";
"2 1 2493 16656 22649 XOR";
"2 1 2495 16656 22647 XOR";
"2 1 2494 16656 22648 XOR";
"2 1 2491 16656 22651 XOR";
"2 1 2486 16656 22656 XOR";
"2 1 2487 16656 22655 XOR";
"2 1 2489 16656 22653 XOR";
"2 1 2488 16656 22654 XOR";
"2 1 2485 16656 22657 XOR";
"2 1 2480 16656 22662 XOR";
"2 1 2481 16656 22661 XOR";
"2 1 2483 16656 22659 XOR";
"2 1 2482 16656 22660 XOR";
"2 1 2479 16656 22663 XOR";
"2 1 2474 16656 22668 XOR";
"2 1 2475 16656 22667 XOR";
"2 1 2477 16656 22665 XOR";
"2 1 2476 16656 22666 XOR";
"2 1 2473 16656 22669 XOR";
"2 1 16656 4535 17540 AND";
"2 1 2462 16656 22680 XOR";
"2 1 2464 16656 22678 XOR";
"2 1 2467 16656 22675 XOR";
"2 1 22618 16946 22492 AND";
"2 1 22555 22492 2585 XOR";
"2 1 22619 22492 9558 XOR";
"2 1 16947 22492 9557 XOR";
"2 1 9558 9557 9556 AND";
"2 1 9556 22492 22493 XOR";
"2 1 22556 22493 2584 XOR";
"2 1 16948 22493 9554 XOR";
"2 1 2585 16948 22367 XOR";
"2 1 2584 16949 22368 XOR";
"2 1 22620 22493 9555 XOR";
"2 1 9555 9554 9553 AND";
"2 1 9553 22493 22494 XOR";
"2 1 22557 22494 2583 XOR";
"2 1 22621 22494 9552 XOR";
"2 1 16949 22494 9551 XOR";
"2 1 9552 9551 9550 AND";
"2 1 9550 22494 22495 XOR";
"2 1 22622 22495 9549 XOR";
"2 1 22558 22495 2582 XOR";
"2 1 16950 22495 9548 XOR";
"2 1 9549 9548 9547 AND";
"2 1 9547 22495 22496 XOR";
"2 1 16951 22496 9545 XOR";
"2 1 22623 22496 9546 XOR";
"2 1 9546 9545 9544 AND";
"2 1 9544 22496 22497 XOR";
"2 1 22560 22497 2580 XOR";
"2 1 16952 22497 9542 XOR";
"2 1 22624 22497 9543 XOR";
"2 1 9543 9542 9541 AND";
"2 1 9541 22497 22498 XOR";
"2 1 22561 22498 2579 XOR";
"2 1 22625 22498 9540 XOR";
"2 1 16953 22498 9539 XOR";
"2 1 9540 9539 9538 AND";
"2 1 9538 22498 22499 XOR";
"2 1 22562 22499 2578 XOR";
"2 1 22626 22499 9537 XOR";
"2 1 16954 22499 9536 XOR";
"2 1 9537 9536 9535 AND";
"2 1 9535 22499 22500 XOR";
"2 1 22563 22500 2577 XOR";
"2 1 22627 22500 9534 XOR";
"2 1 16955 22500 9533 XOR";
"2 1 9534 9533 9532 AND";
"2 1 9532 22500 22501 XOR";
"2 1 22628 22501 9531 XOR";
"2 1 22564 22501 2576 XOR";
"2 1 16956 22501 9530 XOR";
"2 1 9531 9530 9529 AND";
"2 1 9529 22501 22502 XOR";
"2 1 16957 22502 9527 XOR";
"2 1 22629 22502 9528 XOR";
"2 1 9528 9527 9526 AND";
"2 1 9526 22502 22503 XOR";
"2 1 22566 22503 2574 XOR";
"2 1 16958 22503 9524 XOR";
"2 1 22630 22503 9525 XOR";
"2 1 9525 9524 9523 AND";
"2 1 22565 22502 2575 XOR";
"2 1 22559 22496 2581 XOR";
"2 1 2583 16950 22369 XOR";
"2 1 2582 16951 22370 XOR";
"2 1 2581 16952 22371 XOR";
"2 1 2580 16953 22372 XOR";
"2 1 2579 16954 22373 XOR";
"2 1 2578 16955 22374 XOR";
"2 1 2577 16956 22375 XOR";
"2 1 2576 16957 22376 XOR";
"2 1 2575 16958 22377 XOR";
"2 1 2574 16959 22378 XOR";
"2 1 9523 22503 22504 XOR";
"2 1 22631 22504 9522 XOR";
"2 1 16959 22504 9521 XOR";
"2 1 9522 9521 9520 AND";
"2 1 9520 22504 22505 XOR";
"2 1 22568 22505 2572 XOR";
"2 1 16960 22505 9518 XOR";
"2 1 22632 22505 9519 XOR";
"2 1 9519 9518 9517 AND";
"2 1 9517 22505 22506 XOR";
"2 1 22569 22506 2571 XOR";
"2 1 22633 22506 9516 XOR";
"2 1 16961 22506 9515 XOR";
"2 1 9516 9515 9514 AND";
"2 1 9514 22506 22507 XOR";
"2 1 22570 22507 2570 XOR";
"2 1 16962 22507 9512 XOR";
"2 1 22634 22507 9513 XOR";
"2 1 9513 9512 9511 AND";
"2 1 9511 22507 22508 XOR";
"2 1 22635 22508 9510 XOR";
"2 1 22571 22508 2569 XOR";
"2 1 16963 22508 9509 XOR";
"2 1 9510 9509 9508 AND";
"2 1 9508 22508 22509 XOR";
"2 1 16964 22509 9506 XOR";
"2 1 22636 22509 9507 XOR";
"2 1 9507 9506 9505 AND";
"2 1 22572 22509 2568 XOR";
"2 1 22567 22504 2573 XOR";
"2 1 2573 16960 22379 XOR";
"2 1 2572 16961 22380 XOR";
"2 1 2571 16962 22381 XOR";
"2 1 2570 16963 22382 XOR";
"2 1 2569 16964 22383 XOR";
"2 1 2568 16965 22384 XOR";
"2 1 9505 22509 22510 XOR";
"2 1 22573 22510 2567 XOR";
"2 1 22637 22510 9504 XOR";
"2 1 16965 22510 9503 XOR";
"2 1 9504 9503 9502 AND";
"2 1 9502 22510 22511 XOR";
"2 1 22638 22511 9501 XOR";
"2 1 22574 22511 2566 XOR";
"2 1 2567 16966 22385 XOR";
"2 1 2566 16967 22386 XOR";
"2 1 16966 22511 9500 XOR";
"2 1 9501 9500 9499 AND";
"2 1 9499 22511 22512 XOR";
"2 1 22575 22512 2565 XOR";
"2 1 16967 22512 9497 XOR";
"2 1 22639 22512 9498 XOR";
"2 1 9498 9497 9496 AND";
"2 1 9496 22512 22513 XOR";
"2 1 22576 22513 2564 XOR";
"2 1 16968 22513 9494 XOR";
"2 1 22640 22513 9495 XOR";
"2 1 9495 9494 9493 AND";
"2 1 9493 22513 22514 XOR";
"2 1 16969 22514 9491 XOR";
"2 1 22641 22514 9492 XOR";
"2 1 9492 9491 9490 AND";
"2 1 2565 16968 22387 XOR";
"2 1 2564 16969 22388 XOR";
"2 1 9490 22514 22515 XOR";
"2 1 16970 22515 9488 XOR";
"2 1 22578 22515 2562 XOR";
"2 1 22642 22515 9489 XOR";
"2 1 9489 9488 9487 AND";
"2 1 9487 22515 22516 XOR";
"2 1 22579 22516 2561 XOR";
"2 1 16971 22516 9485 XOR";
"2 1 22643 22516 9486 XOR";
"2 1 9486 9485 9484 AND";
"2 1 9484 22516 22517 XOR";
"2 1 22644 22517 9483 XOR";
"2 1 22580 22517 2560 XOR";
"2 1 16972 22517 9482 XOR";
"2 1 9483 9482 9481 AND";
"2 1 9481 22517 22518 XOR";
"2 1 16973 22518 9479 XOR";
"2 1 22581 22518 2559 XOR";
"2 1 22645 22518 9480 XOR";
"2 1 9480 9479 9478 AND";
"2 1 9478 22518 22519 XOR";
"2 1 22582 22519 2558 XOR";
"2 1 16974 22519 9476 XOR";
"2 1 2562 16971 22390 XOR";
"2 1 2561 16972 22391 XOR";
"2 1 2560 16973 22392 XOR";
"2 1 2559 16974 22393 XOR";
"2 1 2558 16975 22394 XOR";
"2 1 22646 22519 9477 XOR";
"2 1 9477 9476 9475 AND";
"2 1 9475 22519 22520 XOR";
"2 1 22583 22520 2557 XOR";
"2 1 16975 22520 9473 XOR";
"2 1 22647 22520 9474 XOR";
"2 1 9474 9473 9472 AND";
"2 1 9472 22520 22521 XOR";
"2 1 16976 22521 9470 XOR";
"2 1 22584 22521 2556 XOR";
"2 1 22648 22521 9471 XOR";
"2 1 9471 9470 9469 AND";
"2 1 9469 22521 22522 XOR";
"2 1 22585 22522 2555 XOR";
"2 1 22649 22522 9468 XOR";
"2 1 16977 22522 9467 XOR";
"2 1 9468 9467 9466 AND";
"2 1 9466 22522 22523 XOR";
"2 1 22586 22523 2554 XOR";
"2 1 16978 22523 9464 XOR";
"2 1 2557 16976 22395 XOR";
"2 1 2556 16977 22396 XOR";
"2 1 2555 16978 22397 XOR";
"2 1 2554 16979 22398 XOR";
"2 1 22650 22523 9465 XOR";
"2 1 9465 9464 9463 AND";
"2 1 9463 22523 22524 XOR";
"2 1 16979 22524 9461 XOR";
"2 1 22587 22524 2553 XOR";
"2 1 22651 22524 9462 XOR";
"2 1 9462 9461 9460 AND";
"2 1 9460 22524 22525 XOR";
"2 1 16980 22525 9458 XOR";
"2 1 22652 22525 9459 XOR";
"2 1 9459 9458 9457 AND";
"2 1 22588 22525 2552 XOR";
"2 1 2553 16980 22399 XOR";
"2 1 2552 16981 22400 XOR";
"2 1 9457 22525 22526 XOR";
"2 1 22653 22526 9456 XOR";
"2 1 16981 22526 9455 XOR";
"2 1 9456 9455 9454 AND";
"2 1 9454 22526 22527 XOR";
"2 1 16982 22527 9452 XOR";
"2 1 22590 22527 2550 XOR";
"2 1 22654 22527 9453 XOR";
"2 1 9453 9452 9451 AND";
"2 1 2550 16983 22402 XOR";
"2 1 22589 22526 2551 XOR";
"2 1 2551 16982 22401 XOR";
"2 1 22577 22514 2563 XOR";
"2 1 2563 16970 22389 XOR";
"2 1 9451 22527 22528 XOR";
"2 1 22591 22528 2549 XOR";
"2 1 22655 22528 9450 XOR";
"2 1 16983 22528 9449 XOR";
"2 1 9450 9449 9448 AND";
"2 1 9448 22528 22529 XOR";
"2 1 22656 22529 9447 XOR";
"2 1 16984 22529 9446 XOR";
"2 1 9447 9446 9445 AND";
"2 1 9445 22529 22530 XOR";
"2 1 16985 22530 9443 XOR";
"2 1 22592 22529 2548 XOR";
"2 1 22593 22530 2547 XOR";
"2 1 22657 22530 9444 XOR";
"2 1 9444 9443 9442 AND";
"2 1 9442 22530 22531 XOR";
"2 1 16986 22531 9440 XOR";
"2 1 22658 22531 9441 XOR";
"2 1 9441 9440 9439 AND";
"2 1 9439 22531 22532 XOR";
"2 1 22595 22532 2545 XOR";
"2 1 16987 22532 9437 XOR";
"2 1 22659 22532 9438 XOR";
"2 1 9438 9437 9436 AND";
"2 1 9436 22532 22533 XOR";
"2 1 22596 22533 2544 XOR";
"2 1 16988 22533 9434 XOR";
"2 1 22660 22533 9435 XOR";
"2 1 9435 9434 9433 AND";
"2 1 9433 22533 22534 XOR";
"2 1 22661 22534 9432 XOR";
"2 1 22597 22534 2543 XOR";
"2 1 16989 22534 9431 XOR";
"2 1 9432 9431 9430 AND";
"2 1 9430 22534 22535 XOR";
"2 1 16990 22535 9428 XOR";
"2 1 2549 16984 22403 XOR";
"2 1 2548 16985 22404 XOR";
"2 1 2547 16986 22405 XOR";
"2 1 2545 16988 22407 XOR";
"2 1 2544 16989 22408 XOR";
"2 1 2543 16990 22409 XOR";
"2 1 22662 22535 9429 XOR";
"2 1 9429 9428 9427 AND";
"2 1 9427 22535 22536 XOR";
"2 1 16991 22536 9425 XOR";
"2 1 22663 22536 9426 XOR";
"2 1 9426 9425 9424 AND";
"2 1 9424 22536 22537 XOR";
"2 1 22599 22536 2541 XOR";
"2 1 16992 22537 9422 XOR";
"2 1 22600 22537 2540 XOR";
"2 1 22664 22537 9423 XOR";
"2 1 2541 16992 22411 XOR";
"2 1 2540 16993 22412 XOR";
"2 1 22598 22535 2542 XOR";
"2 1 2542 16991 22410 XOR";
"2 1 9423 9422 9421 AND";
"2 1 22594 22531 2546 XOR";
"2 1 2546 16987 22406 XOR";
"2 1 9421 22537 22538 XOR";
"2 1 22601 22538 2539 XOR";
"2 1 22665 22538 9420 XOR";
"2 1 2539 16994 22413 XOR";
"2 1 16993 22538 9419 XOR";
"2 1 9420 9419 9418 AND";
"2 1 9418 22538 22539 XOR";
"2 1 22602 22539 2538 XOR";
"2 1 16994 22539 9416 XOR";
"2 1 22666 22539 9417 XOR";
"2 1 9417 9416 9415 AND";
"2 1 9415 22539 22540 XOR";
"2 1 22603 22540 2537 XOR";
"2 1 22667 22540 9414 XOR";
"2 1 16995 22540 9413 XOR";
"2 1 9414 9413 9412 AND";
"2 1 9412 22540 22541 XOR";
"2 1 22668 22541 9411 XOR";
"2 1 22604 22541 2536 XOR";
"2 1 16996 22541 9410 XOR";
"2 1 9411 9410 9409 AND";
"2 1 9409 22541 22542 XOR";
"2 1 22669 22542 9408 XOR";
"2 1 22605 22542 2535 XOR";
"2 1 2538 16995 22414 XOR";
"2 1 2537 16996 22415 XOR";
"2 1 2536 16997 22416 XOR";
"2 1 2535 16998 22417 XOR";
"2 1 16997 22542 9407 XOR";
"2 1 9408 9407 9406 AND";
"2 1 9406 22542 22543 XOR";
"2 1 22606 22543 2534 XOR";
"2 1 16998 22543 9404 XOR";
"2 1 2534 16999 22418 XOR";
"2 1 2472 16656 22670 XOR";
"2 1 22670 22543 9405 XOR";
"2 1 9405 9404 9403 AND";
"2 1 9403 22543 22544 XOR";
"2 1 22607 22544 2533 XOR";
"2 1 16999 22544 9401 XOR";
"2 1 22671 22544 9402 XOR";
"2 1 9402 9401 9400 AND";
"2 1 9400 22544 22545 XOR";
"2 1 17000 22545 9398 XOR";
"2 1 22608 22545 2532 XOR";
"2 1 22672 22545 9399 XOR";
"2 1 9399 9398 9397 AND";
"2 1 2533 17000 22419 XOR";
"2 1 2532 17001 22420 XOR";
"2 1 9397 22545 22546 XOR";
"2 1 22609 22546 2531 XOR";
"2 1 22673 22546 9396 XOR";
"2 1 17001 22546 9395 XOR";
"2 1 2531 17002 22421 XOR";
"2 1 9396 9395 9394 AND";
"2 1 9394 22546 22547 XOR";
"2 1 22674 22547 9393 XOR";
"2 1 22610 22547 2530 XOR";
"2 1 2530 17003 22422 XOR";
"2 1 17002 22547 9392 XOR";
"2 1 9393 9392 9391 AND";
"2 1 9391 22547 22548 XOR";
"2 1 22611 22548 2529 XOR";
"2 1 22675 22548 9390 XOR";
"2 1 17003 22548 9389 XOR";
"2 1 9390 9389 9388 AND";
"2 1 9388 22548 22549 XOR";
"2 1 17004 22549 9386 XOR";
"2 1 22676 22549 9387 XOR";
"2 1 9387 9386 9385 AND";
"2 1 9385 22549 22550 XOR";
"2 1 22613 22550 2527 XOR";
"2 1 17005 22550 9383 XOR";
"2 1 22677 22550 9384 XOR";
"2 1 9384 9383 9382 AND";
"2 1 9382 22550 22551 XOR";
"2 1 17006 22551 9380 XOR";
"2 1 22614 22551 2526 XOR";
"2 1 22612 22549 2528 XOR";
"2 1 2528 17005 22424 XOR";
"2 1 2529 17004 22423 XOR";
"2 1 2527 17006 22425 XOR";
"2 1 2526 17007 22426 XOR";
"2 1 22678 22551 9381 XOR";
"2 1 9381 9380 9379 AND";
"2 1 9379 22551 22552 XOR";
"2 1 17007 22552 9377 XOR";
"2 1 22679 22552 9378 XOR";
"2 1 9378 9377 9376 AND";
"2 1 9376 22552 22553 XOR";
"2 1 17008 22553 9374 XOR";
"2 1 22616 22553 2524 XOR";
"2 1 22680 22553 9375 XOR";
"2 1 2524 17009 22428 XOR";
"2 1 22615 22552 2525 XOR";
"2 1 2525 17008 22427 XOR";
"2 1 9375 9374 9373 AND";
"2 1 9373 22553 22554 XOR";
"2 1 22617 22554 167 XOR";
"1 1 167 16655 INV";
"2 1 2531 16655 22485 XOR";
"2 1 2533 16655 22483 XOR";
"2 1 2526 16655 22490 XOR";
"2 1 2583 16655 22433 XOR";
"2 1 2577 16655 22439 XOR";
"2 1 2571 16655 22445 XOR";
"2 1 2565 16655 22451 XOR";
"2 1 2559 16655 22457 XOR";
"2 1 2553 16655 22463 XOR";
"2 1 2547 16655 22469 XOR";
"2 1 2541 16655 22475 XOR";
"2 1 2530 16655 22486 XOR";
"2 1 2525 16655 22491 XOR";
"2 1 2585 16655 22431 XOR";
"2 1 2586 16655 22430 XOR";
"2 1 16844 16655 22429 XOR";
"2 1 2584 16655 22432 XOR";
"2 1 2579 16655 22437 XOR";
"2 1 2580 16655 22436 XOR";
"2 1 2582 16655 22434 XOR";
"2 1 2581 16655 22435 XOR";
"2 1 2578 16655 22438 XOR";
"2 1 2573 16655 22443 XOR";
"2 1 2574 16655 22442 XOR";
"2 1 2576 16655 22440 XOR";
"2 1 2575 16655 22441 XOR";
"2 1 2572 16655 22444 XOR";
"2 1 2567 16655 22449 XOR";
"2 1 2568 16655 22448 XOR";
"2 1 2570 16655 22446 XOR";
"2 1 2569 16655 22447 XOR";
"2 1 2566 16655 22450 XOR";
"2 1 2561 16655 22455 XOR";
"2 1 2562 16655 22454 XOR";
"2 1 2564 16655 22452 XOR";
"2 1 2563 16655 22453 XOR";
"2 1 2560 16655 22456 XOR";
"2 1 2555 16655 22461 XOR";
"2 1 2556 16655 22460 XOR";
"2 1 2558 16655 22458 XOR";
"2 1 2557 16655 22459 XOR";
"2 1 2554 16655 22462 XOR";
"2 1 2549 16655 22467 XOR";
"2 1 2550 16655 22466 XOR";
"2 1 2552 16655 22464 XOR";
"2 1 2551 16655 22465 XOR";
"2 1 2548 16655 22468 XOR";
"2 1 2543 16655 22473 XOR";
"2 1 2544 16655 22472 XOR";
"2 1 2546 16655 22470 XOR";
"2 1 2545 16655 22471 XOR";
"2 1 2542 16655 22474 XOR";
"2 1 2537 16655 22479 XOR";
"2 1 2538 16655 22478 XOR";
"2 1 2540 16655 22476 XOR";
"2 1 2539 16655 22477 XOR";
"2 1 2536 16655 22480 XOR";
"2 1 22429 16946 22303 AND";
"2 1 22366 22303 2648 XOR";
"2 1 16947 22303 9371 XOR";
"2 1 22430 22303 9372 XOR";
"2 1 9372 9371 9370 AND";
"2 1 9370 22303 22304 XOR";
"2 1 22367 22304 2647 XOR";
"2 1 22431 22304 9369 XOR";
"2 1 16948 22304 9368 XOR";
"2 1 9369 9368 9367 AND";
"2 1 9367 22304 22305 XOR";
"2 1 22432 22305 9366 XOR";
"2 1 22368 22305 2646 XOR";
"2 1 16949 22305 9365 XOR";
"2 1 9366 9365 9364 AND";
"2 1 9364 22305 22306 XOR";
"2 1 16950 22306 9362 XOR";
"2 1 22433 22306 9363 XOR";
"2 1 9363 9362 9361 AND";
"2 1 9361 22306 22307 XOR";
"2 1 22370 22307 2644 XOR";
"2 1 16951 22307 9359 XOR";
"2 1 22434 22307 9360 XOR";
"2 1 9360 9359 9358 AND";
"2 1 22369 22306 2645 XOR";
"2 1 9358 22307 22308 XOR";
"2 1 22371 22308 2643 XOR";
"2 1 22435 22308 9357 XOR";
"2 1 16952 22308 9356 XOR";
"2 1 9357 9356 9355 AND";
"2 1 9355 22308 22309 XOR";
"2 1 22372 22309 2642 XOR";
"2 1 16953 22309 9353 XOR";
"2 1 22436 22309 9354 XOR";
"2 1 9354 9353 9352 AND";
"2 1 9352 22309 22310 XOR";
"2 1 22373 22310 2641 XOR";
"2 1 22437 22310 9351 XOR";
"2 1 16954 22310 9350 XOR";
"2 1 9351 9350 9349 AND";
"2 1 9349 22310 22311 XOR";
"2 1 22438 22311 9348 XOR";
"2 1 22374 22311 2640 XOR";
"2 1 16955 22311 9347 XOR";
"2 1 9348 9347 9346 AND";
"2 1 9346 22311 22312 XOR";
"2 1 16956 22312 9344 XOR";
"2 1 22439 22312 9345 XOR";
"2 1 9345 9344 9343 AND";
"2 1 9343 22312 22313 XOR";
"2 1 22376 22313 2638 XOR";
"2 1 16957 22313 9341 XOR";
"2 1 22440 22313 9342 XOR";
"2 1 9342 9341 9340 AND";
"2 1 22375 22312 2639 XOR";
"2 1 9340 22313 22314 XOR";
"2 1 22377 22314 2637 XOR";
"2 1 22441 22314 9339 XOR";
"2 1 16958 22314 9338 XOR";
"2 1 9339 9338 9337 AND";
"2 1 9337 22314 22315 XOR";
"2 1 22378 22315 2636 XOR";
"2 1 16959 22315 9335 XOR";
"2 1 22442 22315 9336 XOR";
"2 1 9336 9335 9334 AND";
"2 1 9334 22315 22316 XOR";
"2 1 22379 22316 2635 XOR";
"2 1 22443 22316 9333 XOR";
"2 1 16960 22316 9332 XOR";
"2 1 9333 9332 9331 AND";
"2 1 9331 22316 22317 XOR";
"2 1 22444 22317 9330 XOR";
"2 1 22380 22317 2634 XOR";
"2 1 16961 22317 9329 XOR";
"2 1 9330 9329 9328 AND";
"2 1 9328 22317 22318 XOR";
"2 1 16962 22318 9326 XOR";
"2 1 22445 22318 9327 XOR";
"2 1 9327 9326 9325 AND";
"2 1 9325 22318 22319 XOR";
"2 1 22382 22319 2632 XOR";
"2 1 16963 22319 9323 XOR";
"2 1 22446 22319 9324 XOR";
"2 1 9324 9323 9322 AND";
"2 1 22381 22318 2633 XOR";
"2 1 9322 22319 22320 XOR";
"2 1 22383 22320 2631 XOR";
"2 1 22447 22320 9321 XOR";
"2 1 16964 22320 9320 XOR";
"2 1 9321 9320 9319 AND";
"2 1 9319 22320 22321 XOR";
"2 1 22384 22321 2630 XOR";
"2 1 16965 22321 9317 XOR";
"2 1 22448 22321 9318 XOR";
"2 1 9318 9317 9316 AND";
"2 1 9316 22321 22322 XOR";
"2 1 22385 22322 2629 XOR";
"2 1 22449 22322 9315 XOR";
"2 1 16966 22322 9314 XOR";
"2 1 9315 9314 9313 AND";
"2 1 9313 22322 22323 XOR";
"2 1 22450 22323 9312 XOR";
"2 1 22386 22323 2628 XOR";
"2 1 16967 22323 9311 XOR";
"2 1 9312 9311 9310 AND";
"2 1 9310 22323 22324 XOR";
"2 1 16968 22324 9308 XOR";
"2 1 22451 22324 9309 XOR";
"2 1 9309 9308 9307 AND";
"2 1 9307 22324 22325 XOR";
"2 1 22388 22325 2626 XOR";
"2 1 16969 22325 9305 XOR";
"2 1 22452 22325 9306 XOR";
"2 1 9306 9305 9304 AND";
"2 1 22387 22324 2627 XOR";
"2 1 9304 22325 22326 XOR";
"2 1 22389 22326 2625 XOR";
"2 1 22453 22326 9303 XOR";
"2 1 16970 22326 9302 XOR";
"2 1 9303 9302 9301 AND";
"2 1 9301 22326 22327 XOR";
"2 1 22390 22327 2624 XOR";
"2 1 16971 22327 9299 XOR";
"2 1 22454 22327 9300 XOR";
"2 1 9300 9299 9298 AND";
"2 1 9298 22327 22328 XOR";
"2 1 22391 22328 2623 XOR";
"2 1 22455 22328 9297 XOR";
"2 1 16972 22328 9296 XOR";
"2 1 9297 9296 9295 AND";
"2 1 9295 22328 22329 XOR";
"2 1 22456 22329 9294 XOR";
"2 1 22392 22329 2622 XOR";
"2 1 16973 22329 9293 XOR";
"2 1 9294 9293 9292 AND";
"2 1 9292 22329 22330 XOR";
"2 1 16974 22330 9290 XOR";
"2 1 22457 22330 9291 XOR";
"2 1 9291 9290 9289 AND";
"2 1 9289 22330 22331 XOR";
"2 1 22394 22331 2620 XOR";
"2 1 16975 22331 9287 XOR";
"2 1 22458 22331 9288 XOR";
"2 1 9288 9287 9286 AND";
"2 1 22393 22330 2621 XOR";
"2 1 9286 22331 22332 XOR";
"2 1 22395 22332 2619 XOR";
"2 1 22459 22332 9285 XOR";
"2 1 16976 22332 9284 XOR";
"2 1 9285 9284 9283 AND";
"2 1 9283 22332 22333 XOR";
"2 1 22396 22333 2618 XOR";
"2 1 16977 22333 9281 XOR";
"2 1 22460 22333 9282 XOR";
"2 1 9282 9281 9280 AND";
"2 1 9280 22333 22334 XOR";
"2 1 22397 22334 2617 XOR";
"2 1 22461 22334 9279 XOR";
"2 1 16978 22334 9278 XOR";
"2 1 9279 9278 9277 AND";
"2 1 9277 22334 22335 XOR";
"2 1 22462 22335 9276 XOR";
"2 1 22398 22335 2616 XOR";
"2 1 16979 22335 9275 XOR";
"2 1 9276 9275 9274 AND";
"2 1 9274 22335 22336 XOR";
"2 1 16980 22336 9272 XOR";
"2 1 22463 22336 9273 XOR";
"2 1 9273 9272 9271 AND";
"2 1 9271 22336 22337 XOR";
"2 1 22400 22337 2614 XOR";
"2 1 16981 22337 9269 XOR";
"2 1 22464 22337 9270 XOR";
"2 1 9270 9269 9268 AND";
"2 1 22399 22336 2615 XOR";
"2 1 9268 22337 22338 XOR";
"2 1 22465 22338 9267 XOR";
"2 1 16982 22338 9266 XOR";
"2 1 22401 22338 2613 XOR";
"2 1 9267 9266 9265 AND";
"2 1 9265 22338 22339 XOR";
"2 1 16983 22339 9263 XOR";
"2 1 22402 22339 2612 XOR";
"2 1 22466 22339 9264 XOR";
"2 1 9264 9263 9262 AND";
"2 1 9262 22339 22340 XOR";
"2 1 22467 22340 9261 XOR";
"2 1 22403 22340 2611 XOR";
"2 1 16984 22340 9260 XOR";
"2 1 9261 9260 9259 AND";
"2 1 9259 22340 22341 XOR";
"2 1 16985 22341 9257 XOR";
"2 1 22404 22341 2610 XOR";
"2 1 22468 22341 9258 XOR";
"2 1 9258 9257 9256 AND";
"2 1 9256 22341 22342 XOR";
"2 1 16986 22342 9254 XOR";
"2 1 22469 22342 9255 XOR";
"2 1 9255 9254 9253 AND";
"2 1 9253 22342 22343 XOR";
"2 1 22470 22343 9252 XOR";
"2 1 22406 22343 2608 XOR";
"2 1 16987 22343 9251 XOR";
"2 1 9252 9251 9250 AND";
"2 1 22405 22342 2609 XOR";
"2 1 9250 22343 22344 XOR";
"2 1 22407 22344 2607 XOR";
"2 1 22471 22344 9249 XOR";
"2 1 16988 22344 9248 XOR";
"2 1 9249 9248 9247 AND";
"2 1 9247 22344 22345 XOR";
"2 1 22408 22345 2606 XOR";
"2 1 16989 22345 9245 XOR";
"2 1 22472 22345 9246 XOR";
"2 1 9246 9245 9244 AND";
"2 1 9244 22345 22346 XOR";
"2 1 22409 22346 2605 XOR";
"2 1 22473 22346 9243 XOR";
"2 1 16990 22346 9242 XOR";
"2 1 9243 9242 9241 AND";
"2 1 9241 22346 22347 XOR";
"2 1 16991 22347 9239 XOR";
"2 1 22410 22347 2604 XOR";
"2 1 22474 22347 9240 XOR";
"2 1 9240 9239 9238 AND";
"2 1 9238 22347 22348 XOR";
"2 1 16992 22348 9236 XOR";
"2 1 22475 22348 9237 XOR";
"2 1 9237 9236 9235 AND";
"2 1 9235 22348 22349 XOR";
"2 1 22412 22349 2602 XOR";
"2 1 22476 22349 9234 XOR";
"2 1 16993 22349 9233 XOR";
"2 1 9234 9233 9232 AND";
"2 1 22411 22348 2603 XOR";
"2 1 9232 22349 22350 XOR";
"2 1 16994 22350 9230 XOR";
"2 1 22413 22350 2601 XOR";
"2 1 22477 22350 9231 XOR";
"2 1 9231 9230 9229 AND";
"2 1 9229 22350 22351 XOR";
"2 1 22414 22351 2600 XOR";
"2 1 16995 22351 9227 XOR";
"2 1 22478 22351 9228 XOR";
"2 1 9228 9227 9226 AND";
"2 1 9226 22351 22352 XOR";
"2 1 22479 22352 9225 XOR";
"2 1 22415 22352 2599 XOR";
"2 1 2648 16948 22178 XOR";
"2 1 2647 16949 22179 XOR";
"2 1 2646 16950 22180 XOR";
"2 1 2645 16951 22181 XOR";
"2 1 2644 16952 22182 XOR";
"2 1 2643 16953 22183 XOR";
"2 1 2642 16954 22184 XOR";
"2 1 2641 16955 22185 XOR";
"2 1 2640 16956 22186 XOR";
"2 1 2639 16957 22187 XOR";
"2 1 2638 16958 22188 XOR";
"2 1 2637 16959 22189 XOR";
"2 1 2636 16960 22190 XOR";
"2 1 2635 16961 22191 XOR";
"2 1 2634 16962 22192 XOR";
"2 1 2633 16963 22193 XOR";
"2 1 2632 16964 22194 XOR";
"2 1 2631 16965 22195 XOR";
"2 1 2630 16966 22196 XOR";
"2 1 2629 16967 22197 XOR";
"2 1 2628 16968 22198 XOR";
"2 1 2627 16969 22199 XOR";
"2 1 2626 16970 22200 XOR";
"2 1 2625 16971 22201 XOR";
"2 1 2624 16972 22202 XOR";
"2 1 2623 16973 22203 XOR";
"2 1 2622 16974 22204 XOR";
"2 1 2621 16975 22205 XOR";
"2 1 2620 16976 22206 XOR";
"2 1 2619 16977 22207 XOR";
"2 1 2618 16978 22208 XOR";
"2 1 2617 16979 22209 XOR";
"2 1 2616 16980 22210 XOR";
"2 1 2615 16981 22211 XOR";
"2 1 2614 16982 22212 XOR";
"2 1 2613 16983 22213 XOR";
"2 1 2612 16984 22214 XOR";
"2 1 2611 16985 22215 XOR";
"2 1 2610 16986 22216 XOR";
"2 1 2609 16987 22217 XOR";
"2 1 2608 16988 22218 XOR";
"2 1 2607 16989 22219 XOR";
"2 1 2606 16990 22220 XOR";
"2 1 2605 16991 22221 XOR";
"2 1 2604 16992 22222 XOR";
"2 1 2603 16993 22223 XOR";
"2 1 2602 16994 22224 XOR";
"2 1 2601 16995 22225 XOR";
"2 1 2600 16996 22226 XOR";
"2 1 2599 16997 22227 XOR";
"2 1 2528 16655 22488 XOR";
"2 1 2535 16655 22481 XOR";
"2 1 16996 22352 9224 XOR";
"2 1 9225 9224 9223 AND";
"2 1 9223 22352 22353 XOR";
"2 1 22480 22353 9222 XOR";
"2 1 16997 22353 9221 XOR";
"2 1 9222 9221 9220 AND";
"2 1 9220 22353 22354 XOR";
"2 1 16998 22354 9218 XOR";
"2 1 22416 22353 2598 XOR";
"2 1 22481 22354 9219 XOR";
"2 1 9219 9218 9217 AND";
"2 1 9217 22354 22355 XOR";
"2 1 22418 22355 2596 XOR";
"2 1 16999 22355 9215 XOR";
"2 1 2598 16998 22228 XOR";
"2 1 2596 17000 22230 XOR";
"2 1 16655 4535 17539 AND";
"2 1 22417 22354 2597 XOR";
"2 1 2597 16999 22229 XOR";
"2 1 2532 16655 22484 XOR";
"2 1 2529 16655 22487 XOR";
"2 1 2527 16655 22489 XOR";
"2 1 2534 16655 22482 XOR";
"2 1 22482 22355 9216 XOR";
"2 1 9216 9215 9214 AND";
"2 1 9214 22355 22356 XOR";
"2 1 22419 22356 2595 XOR";
"2 1 22483 22356 9213 XOR";
"2 1 17000 22356 9212 XOR";
"2 1 2595 17001 22231 XOR";
"2 1 9213 9212 9211 AND";
"2 1 9211 22356 22357 XOR";
"2 1 22420 22357 2594 XOR";
"2 1 17001 22357 9209 XOR";
"2 1 2594 17002 22232 XOR";
"2 1 22484 22357 9210 XOR";
"2 1 9210 9209 9208 AND";
"2 1 9208 22357 22358 XOR";
"2 1 22421 22358 2593 XOR";
"2 1 22485 22358 9207 XOR";
"2 1 2593 17003 22233 XOR";
"2 1 17002 22358 9206 XOR";
"2 1 9207 9206 9205 AND";
"2 1 9205 22358 22359 XOR";
"2 1 22486 22359 9204 XOR";
"2 1 22422 22359 2592 XOR";
"2 1 17003 22359 9203 XOR";
"2 1 9204 9203 9202 AND";
"2 1 9202 22359 22360 XOR";
"2 1 17004 22360 9200 XOR";
"2 1 22487 22360 9201 XOR";
"2 1 9201 9200 9199 AND";
"2 1 9199 22360 22361 XOR";
"2 1 22424 22361 2590 XOR";
"2 1 17005 22361 9197 XOR";
"2 1 22488 22361 9198 XOR";
"2 1 9198 9197 9196 AND";
"2 1 9196 22361 22362 XOR";
"2 1 22425 22362 2589 XOR";
"2 1 22489 22362 9195 XOR";
"2 1 17006 22362 9194 XOR";
"2 1 22423 22360 2591 XOR";
"2 1 2591 17005 22235 XOR";
"2 1 2592 17004 22234 XOR";
"2 1 2590 17006 22236 XOR";
"2 1 9195 9194 9193 AND";
"2 1 9193 22362 22363 XOR";
"2 1 22426 22363 2588 XOR";
"2 1 17007 22363 9191 XOR";
"2 1 22490 22363 9192 XOR";
"2 1 9192 9191 9190 AND";
"2 1 9190 22363 22364 XOR";
"2 1 22427 22364 2587 XOR";
"2 1 22491 22364 9189 XOR";
"2 1 2588 17008 22238 XOR";
"2 1 2587 17009 22239 XOR";
"2 1 2589 17007 22237 XOR";
"2 1 17008 22364 9188 XOR";
"2 1 9189 9188 9187 AND";
"2 1 9187 22364 22365 XOR";
"2 1 22428 22365 168 XOR";
"1 1 168 16654 INV";
"2 1 2595 16654 22295 XOR";
"2 1 2591 16654 22299 XOR";
"2 1 2645 16654 22245 XOR";
"2 1 2639 16654 22251 XOR";
"2 1 2633 16654 22257 XOR";
"2 1 2627 16654 22263 XOR";
"2 1 2621 16654 22269 XOR";
"2 1 2615 16654 22275 XOR";
"2 1 2609 16654 22281 XOR";
"2 1 2603 16654 22287 XOR";
"2 1 2596 16654 22294 XOR";
"2 1 2594 16654 22296 XOR";
"2 1 2588 16654 22302 XOR";
"2 1 2592 16654 22298 XOR";
"2 1 2589 16654 22301 XOR";
"2 1 2647 16654 22243 XOR";
"2 1 2648 16654 22242 XOR";
"2 1 16843 16654 22240 XOR";
"2 1 2649 16654 22241 XOR";
"2 1 2646 16654 22244 XOR";
"2 1 2641 16654 22249 XOR";
"2 1 2642 16654 22248 XOR";
"2 1 2644 16654 22246 XOR";
"2 1 2643 16654 22247 XOR";
"2 1 2640 16654 22250 XOR";
"2 1 2635 16654 22255 XOR";
"2 1 2636 16654 22254 XOR";
"2 1 2638 16654 22252 XOR";
"2 1 2637 16654 22253 XOR";
"2 1 2634 16654 22256 XOR";
"2 1 2629 16654 22261 XOR";
"2 1 2630 16654 22260 XOR";
"2 1 2632 16654 22258 XOR";
"2 1 2631 16654 22259 XOR";
"2 1 2628 16654 22262 XOR";
"2 1 2623 16654 22267 XOR";
"2 1 2624 16654 22266 XOR";
"2 1 2626 16654 22264 XOR";
"2 1 2625 16654 22265 XOR";
"2 1 2622 16654 22268 XOR";
"2 1 2617 16654 22273 XOR";
"2 1 2618 16654 22272 XOR";
"2 1 2620 16654 22270 XOR";
"2 1 2619 16654 22271 XOR";
"2 1 2616 16654 22274 XOR";
"2 1 2611 16654 22279 XOR";
"2 1 2612 16654 22278 XOR";
"2 1 2614 16654 22276 XOR";
"2 1 2613 16654 22277 XOR";
"2 1 2610 16654 22280 XOR";
"2 1 2605 16654 22285 XOR";
"2 1 2606 16654 22284 XOR";
"2 1 2608 16654 22282 XOR";
"2 1 2607 16654 22283 XOR";
"2 1 2604 16654 22286 XOR";
"2 1 2599 16654 22291 XOR";
"2 1 2600 16654 22290 XOR";
"2 1 2602 16654 22288 XOR";
"2 1 2601 16654 22289 XOR";
"2 1 2598 16654 22292 XOR";
"2 1 16654 4535 17538 AND";
"2 1 2590 16654 22300 XOR";
"2 1 22240 16946 22114 AND";
"2 1 22177 22114 2711 XOR";
"2 1 16947 22114 9185 XOR";
"2 1 22241 22114 9186 XOR";
"2 1 9186 9185 9184 AND";
"2 1 9184 22114 22115 XOR";
"2 1 22178 22115 2710 XOR";
"2 1 22242 22115 9183 XOR";
"2 1 16948 22115 9182 XOR";
"2 1 9183 9182 9181 AND";
"2 1 9181 22115 22116 XOR";
"2 1 22243 22116 9180 XOR";
"2 1 22179 22116 2709 XOR";
"2 1 16949 22116 9179 XOR";
"2 1 9180 9179 9178 AND";
"2 1 9178 22116 22117 XOR";
"2 1 16950 22117 9176 XOR";
"2 1 22244 22117 9177 XOR";
"2 1 9177 9176 9175 AND";
"2 1 9175 22117 22118 XOR";
"2 1 22181 22118 2707 XOR";
"2 1 16951 22118 9173 XOR";
"2 1 22245 22118 9174 XOR";
"2 1 9174 9173 9172 AND";
"2 1 22180 22117 2708 XOR";
"2 1 9172 22118 22119 XOR";
"2 1 22182 22119 2706 XOR";
"2 1 22246 22119 9171 XOR";
"2 1 16952 22119 9170 XOR";
"2 1 9171 9170 9169 AND";
"2 1 9169 22119 22120 XOR";
"2 1 22183 22120 2705 XOR";
"2 1 16953 22120 9167 XOR";
"2 1 22247 22120 9168 XOR";
"2 1 9168 9167 9166 AND";
"2 1 9166 22120 22121 XOR";
"2 1 22184 22121 2704 XOR";
"2 1 22248 22121 9165 XOR";
"2 1 16954 22121 9164 XOR";
"2 1 9165 9164 9163 AND";
"2 1 9163 22121 22122 XOR";
"2 1 22249 22122 9162 XOR";
"2 1 22185 22122 2703 XOR";
"2 1 16955 22122 9161 XOR";
"2 1 9162 9161 9160 AND";
"2 1 9160 22122 22123 XOR";
"2 1 16956 22123 9158 XOR";
"2 1 22250 22123 9159 XOR";
"2 1 9159 9158 9157 AND";
"2 1 9157 22123 22124 XOR";
"2 1 22187 22124 2701 XOR";
"2 1 16957 22124 9155 XOR";
"2 1 22251 22124 9156 XOR";
"2 1 9156 9155 9154 AND";
"2 1 22186 22123 2702 XOR";
"2 1 9154 22124 22125 XOR";
"2 1 22188 22125 2700 XOR";
"2 1 22252 22125 9153 XOR";
"2 1 16958 22125 9152 XOR";
"2 1 9153 9152 9151 AND";
"2 1 9151 22125 22126 XOR";
"2 1 22189 22126 2699 XOR";
"2 1 16959 22126 9149 XOR";
"2 1 22253 22126 9150 XOR";
"2 1 9150 9149 9148 AND";
"2 1 9148 22126 22127 XOR";
"2 1 22190 22127 2698 XOR";
"2 1 22254 22127 9147 XOR";
"2 1 16960 22127 9146 XOR";
"2 1 9147 9146 9145 AND";
"2 1 9145 22127 22128 XOR";
"2 1 22255 22128 9144 XOR";
"2 1 22191 22128 2697 XOR";
"2 1 16961 22128 9143 XOR";
"2 1 9144 9143 9142 AND";
"2 1 9142 22128 22129 XOR";
"2 1 16962 22129 9140 XOR";
"2 1 22256 22129 9141 XOR";
"2 1 9141 9140 9139 AND";
"2 1 9139 22129 22130 XOR";
"2 1 22193 22130 2695 XOR";
"2 1 16963 22130 9137 XOR";
"2 1 22257 22130 9138 XOR";
"2 1 9138 9137 9136 AND";
"2 1 22192 22129 2696 XOR";
"2 1 9136 22130 22131 XOR";
"2 1 22194 22131 2694 XOR";
"2 1 22258 22131 9135 XOR";
"2 1 16964 22131 9134 XOR";
"2 1 9135 9134 9133 AND";
"2 1 9133 22131 22132 XOR";
"2 1 22195 22132 2693 XOR";
"2 1 16965 22132 9131 XOR";
"2 1 22259 22132 9132 XOR";
"2 1 9132 9131 9130 AND";
"2 1 9130 22132 22133 XOR";
"2 1 22196 22133 2692 XOR";
"2 1 22260 22133 9129 XOR";
"2 1 16966 22133 9128 XOR";
"2 1 9129 9128 9127 AND";
"2 1 9127 22133 22134 XOR";
"2 1 22261 22134 9126 XOR";
"2 1 22197 22134 2691 XOR";
"2 1 16967 22134 9125 XOR";
"2 1 9126 9125 9124 AND";
"2 1 9124 22134 22135 XOR";
"2 1 16968 22135 9122 XOR";
"2 1 22262 22135 9123 XOR";
"2 1 9123 9122 9121 AND";
"2 1 9121 22135 22136 XOR";
"2 1 22199 22136 2689 XOR";
"2 1 16969 22136 9119 XOR";
"2 1 22263 22136 9120 XOR";
"2 1 9120 9119 9118 AND";
"2 1 22198 22135 2690 XOR";
"2 1 9118 22136 22137 XOR";
"2 1 22200 22137 2688 XOR";
"2 1 22264 22137 9117 XOR";
"2 1 16970 22137 9116 XOR";
"2 1 9117 9116 9115 AND";
"2 1 9115 22137 22138 XOR";
"2 1 22201 22138 2687 XOR";
"2 1 16971 22138 9113 XOR";
"2 1 22265 22138 9114 XOR";
"2 1 9114 9113 9112 AND";
"2 1 9112 22138 22139 XOR";
"2 1 22202 22139 2686 XOR";
"2 1 22266 22139 9111 XOR";
"2 1 16972 22139 9110 XOR";
"2 1 9111 9110 9109 AND";
"2 1 9109 22139 22140 XOR";
"2 1 22267 22140 9108 XOR";
"2 1 22203 22140 2685 XOR";
"2 1 16973 22140 9107 XOR";
"2 1 9108 9107 9106 AND";
"2 1 9106 22140 22141 XOR";
"2 1 16974 22141 9104 XOR";
"2 1 22268 22141 9105 XOR";
"2 1 9105 9104 9103 AND";
"2 1 9103 22141 22142 XOR";
"2 1 22205 22142 2683 XOR";
"2 1 16975 22142 9101 XOR";
"2 1 22269 22142 9102 XOR";
"2 1 9102 9101 9100 AND";
"2 1 22204 22141 2684 XOR";
"2 1 9100 22142 22143 XOR";
"2 1 22270 22143 9099 XOR";
"2 1 16976 22143 9098 XOR";
"2 1 22206 22143 2682 XOR";
"2 1 9099 9098 9097 AND";
"2 1 9097 22143 22144 XOR";
"2 1 16977 22144 9095 XOR";
"2 1 22207 22144 2681 XOR";
"2 1 22271 22144 9096 XOR";
"2 1 9096 9095 9094 AND";
"2 1 9094 22144 22145 XOR";
"2 1 22272 22145 9093 XOR";
"2 1 22208 22145 2680 XOR";
"2 1 16978 22145 9092 XOR";
"2 1 9093 9092 9091 AND";
"2 1 9091 22145 22146 XOR";
"2 1 16979 22146 9089 XOR";
"2 1 22209 22146 2679 XOR";
"2 1 22273 22146 9090 XOR";
"2 1 9090 9089 9088 AND";
"2 1 9088 22146 22147 XOR";
"2 1 16980 22147 9086 XOR";
"2 1 22274 22147 9087 XOR";
"2 1 9087 9086 9085 AND";
"2 1 9085 22147 22148 XOR";
"2 1 22275 22148 9084 XOR";
"2 1 22211 22148 2677 XOR";
"2 1 16981 22148 9083 XOR";
"2 1 9084 9083 9082 AND";
"2 1 22210 22147 2678 XOR";
"2 1 9082 22148 22149 XOR";
"2 1 22212 22149 2676 XOR";
"2 1 22276 22149 9081 XOR";
"2 1 16982 22149 9080 XOR";
"2 1 9081 9080 9079 AND";
"2 1 9079 22149 22150 XOR";
"2 1 22213 22150 2675 XOR";
"2 1 16983 22150 9077 XOR";
"2 1 22277 22150 9078 XOR";
"2 1 9078 9077 9076 AND";
"2 1 9076 22150 22151 XOR";
"2 1 22214 22151 2674 XOR";
"2 1 22278 22151 9075 XOR";
"2 1 16984 22151 9074 XOR";
"2 1 9075 9074 9073 AND";
"2 1 9073 22151 22152 XOR";
"2 1 16985 22152 9071 XOR";
"2 1 22215 22152 2673 XOR";
"2 1 22279 22152 9072 XOR";
"2 1 9072 9071 9070 AND";
"2 1 9070 22152 22153 XOR";
"2 1 16986 22153 9068 XOR";
"2 1 22280 22153 9069 XOR";
"2 1 9069 9068 9067 AND";
"2 1 9067 22153 22154 XOR";
"2 1 22217 22154 2671 XOR";
"2 1 22281 22154 9066 XOR";
"2 1 16987 22154 9065 XOR";
"2 1 9066 9065 9064 AND";
"2 1 22216 22153 2672 XOR";
"2 1 9064 22154 22155 XOR";
"2 1 16988 22155 9062 XOR";
"2 1 22218 22155 2670 XOR";
"2 1 22282 22155 9063 XOR";
"2 1 9063 9062 9061 AND";
"2 1 9061 22155 22156 XOR";
"2 1 22219 22156 2669 XOR";
"2 1 16989 22156 9059 XOR";
"2 1 22283 22156 9060 XOR";
"2 1 9060 9059 9058 AND";
"2 1 9058 22156 22157 XOR";
"2 1 22284 22157 9057 XOR";
"2 1 22220 22157 2668 XOR";
"2 1 16990 22157 9056 XOR";
"2 1 9057 9056 9055 AND";
"2 1 9055 22157 22158 XOR";
"2 1 22285 22158 9054 XOR";
"2 1 16991 22158 9053 XOR";
"2 1 9054 9053 9052 AND";
"2 1 9052 22158 22159 XOR";
"2 1 16992 22159 9050 XOR";
"2 1 22221 22158 2667 XOR";
"2 1 22286 22159 9051 XOR";
"2 1 9051 9050 9049 AND";
"2 1 9049 22159 22160 XOR";
"2 1 22223 22160 2665 XOR";
"2 1 22287 22160 9048 XOR";
"2 1 16993 22160 9047 XOR";
"2 1 9048 9047 9046 AND";
"2 1 22222 22159 2666 XOR";
"2 1 9046 22160 22161 XOR";
"2 1 22288 22161 9045 XOR";
"2 1 16994 22161 9044 XOR";
"2 1 22224 22161 2664 XOR";
"2 1 2711 16948 21989 XOR";
"2 1 2710 16949 21990 XOR";
"2 1 2709 16950 21991 XOR";
"2 1 2708 16951 21992 XOR";
"2 1 2707 16952 21993 XOR";
"2 1 2706 16953 21994 XOR";
"2 1 2705 16954 21995 XOR";
"2 1 2704 16955 21996 XOR";
"2 1 2703 16956 21997 XOR";
"2 1 2702 16957 21998 XOR";
"2 1 2701 16958 21999 XOR";
"2 1 2700 16959 22000 XOR";
"2 1 2699 16960 22001 XOR";
"2 1 2698 16961 22002 XOR";
"2 1 2697 16962 22003 XOR";
"2 1 2696 16963 22004 XOR";
"2 1 2695 16964 22005 XOR";
"2 1 2694 16965 22006 XOR";
"2 1 2693 16966 22007 XOR";
"2 1 2692 16967 22008 XOR";
"2 1 2691 16968 22009 XOR";
"2 1 2690 16969 22010 XOR";
"2 1 2689 16970 22011 XOR";
"2 1 2688 16971 22012 XOR";
"2 1 2687 16972 22013 XOR";
"2 1 2686 16973 22014 XOR";
"2 1 2685 16974 22015 XOR";
"2 1 2684 16975 22016 XOR";
"2 1 2683 16976 22017 XOR";
"2 1 2682 16977 22018 XOR";
"2 1 2681 16978 22019 XOR";
"2 1 2680 16979 22020 XOR";
"2 1 2679 16980 22021 XOR";
"2 1 2678 16981 22022 XOR";
"2 1 2677 16982 22023 XOR";
"2 1 2676 16983 22024 XOR";
"2 1 2675 16984 22025 XOR";
"2 1 2674 16985 22026 XOR";
"2 1 2673 16986 22027 XOR";
"2 1 2672 16987 22028 XOR";
"2 1 2671 16988 22029 XOR";
"2 1 2670 16989 22030 XOR";
"2 1 2669 16990 22031 XOR";
"2 1 2668 16991 22032 XOR";
"2 1 2667 16992 22033 XOR";
"2 1 2666 16993 22034 XOR";
"2 1 2665 16994 22035 XOR";
"2 1 2664 16995 22036 XOR";
"2 1 9045 9044 9043 AND";
"2 1 9043 22161 22162 XOR";
"2 1 16995 22162 9041 XOR";
"2 1 22225 22162 2663 XOR";
"2 1 2663 16996 22037 XOR";
"2 1 22289 22162 9042 XOR";
"2 1 9042 9041 9040 AND";
"2 1 9040 22162 22163 XOR";
"2 1 22226 22163 2662 XOR";
"2 1 16996 22163 9038 XOR";
"2 1 22290 22163 9039 XOR";
"2 1 9039 9038 9037 AND";
"2 1 9037 22163 22164 XOR";
"2 1 16997 22164 9035 XOR";
"2 1 22291 22164 9036 XOR";
"2 1 9036 9035 9034 AND";
"2 1 22227 22164 2661 XOR";
"2 1 9034 22164 22165 XOR";
"2 1 22228 22165 2660 XOR";
"2 1 16998 22165 9032 XOR";
"2 1 22292 22165 9033 XOR";
"2 1 9033 9032 9031 AND";
"2 1 9031 22165 22166 XOR";
"2 1 22229 22166 2659 XOR";
"2 1 16999 22166 9029 XOR";
"2 1 2662 16997 22038 XOR";
"2 1 2661 16998 22039 XOR";
"2 1 2660 16999 22040 XOR";
"2 1 2659 17000 22041 XOR";
"2 1 2593 16654 22297 XOR";
"2 1 2597 16654 22293 XOR";
"2 1 22293 22166 9030 XOR";
"2 1 9030 9029 9028 AND";
"2 1 9028 22166 22167 XOR";
"2 1 22230 22167 2658 XOR";
"2 1 22294 22167 9027 XOR";
"2 1 17000 22167 9026 XOR";
"2 1 2658 17001 22042 XOR";
"2 1 9027 9026 9025 AND";
"2 1 9025 22167 22168 XOR";
"2 1 22231 22168 2657 XOR";
"2 1 17001 22168 9023 XOR";
"2 1 2657 17002 22043 XOR";
"2 1 22295 22168 9024 XOR";
"2 1 9024 9023 9022 AND";
"2 1 9022 22168 22169 XOR";
"2 1 22232 22169 2656 XOR";
"2 1 22296 22169 9021 XOR";
"2 1 17002 22169 9020 XOR";
"2 1 9021 9020 9019 AND";
"2 1 9019 22169 22170 XOR";
"2 1 22297 22170 9018 XOR";
"2 1 22233 22170 2655 XOR";
"2 1 17003 22170 9017 XOR";
"2 1 9018 9017 9016 AND";
"2 1 9016 22170 22171 XOR";
"2 1 22234 22171 2654 XOR";
"2 1 17004 22171 9014 XOR";
"2 1 22298 22171 9015 XOR";
"2 1 9015 9014 9013 AND";
"2 1 9013 22171 22172 XOR";
"2 1 22235 22172 2653 XOR";
"2 1 17005 22172 9011 XOR";
"2 1 22299 22172 9012 XOR";
"2 1 9012 9011 9010 AND";
"2 1 2653 17006 22047 XOR";
"2 1 2654 17005 22046 XOR";
"2 1 2656 17003 22044 XOR";
"2 1 2655 17004 22045 XOR";
"2 1 9010 22172 22173 XOR";
"2 1 22236 22173 2652 XOR";
"2 1 22300 22173 9009 XOR";
"2 1 17006 22173 9008 XOR";
"2 1 9009 9008 9007 AND";
"2 1 9007 22173 22174 XOR";
"2 1 22237 22174 2651 XOR";
"2 1 17007 22174 9005 XOR";
"2 1 2652 17007 22048 XOR";
"2 1 2651 17008 22049 XOR";
"2 1 22301 22174 9006 XOR";
"2 1 9006 9005 9004 AND";
"2 1 9004 22174 22175 XOR";
"2 1 17008 22175 9002 XOR";
"2 1 22238 22175 2650 XOR";
"2 1 22302 22175 9003 XOR";
"2 1 9003 9002 9001 AND";
"2 1 9001 22175 22176 XOR";
"2 1 22239 22176 169 XOR";
"2 1 2650 17009 22050 XOR";
"1 1 169 16653 INV";
"2 1 2658 16653 22106 XOR";
"2 1 2654 16653 22110 XOR";
"2 1 2708 16653 22056 XOR";
"2 1 2702 16653 22062 XOR";
"2 1 2696 16653 22068 XOR";
"2 1 2690 16653 22074 XOR";
"2 1 2684 16653 22080 XOR";
"2 1 2678 16653 22086 XOR";
"2 1 2672 16653 22092 XOR";
"2 1 2666 16653 22098 XOR";
"2 1 2657 16653 22107 XOR";
"2 1 2652 16653 22112 XOR";
"2 1 2651 16653 22113 XOR";
"2 1 2653 16653 22111 XOR";
"2 1 2656 16653 22108 XOR";
"2 1 2710 16653 22054 XOR";
"2 1 2711 16653 22053 XOR";
"2 1 16842 16653 22051 XOR";
"2 1 22051 16946 21925 AND";
"2 1 21988 21925 2774 XOR";
"2 1 16947 21925 8999 XOR";
"2 1 2774 16948 21800 XOR";
"2 1 2712 16653 22052 XOR";
"2 1 22052 21925 9000 XOR";
"2 1 9000 8999 8998 AND";
"2 1 8998 21925 21926 XOR";
"2 1 22053 21926 8997 XOR";
"2 1 21989 21926 2773 XOR";
"2 1 16948 21926 8996 XOR";
"2 1 8997 8996 8995 AND";
"2 1 8995 21926 21927 XOR";
"2 1 16949 21927 8993 XOR";
"2 1 22054 21927 8994 XOR";
"2 1 8994 8993 8992 AND";
"2 1 8992 21927 21928 XOR";
"2 1 21991 21928 2771 XOR";
"2 1 16950 21928 8990 XOR";
"2 1 21990 21927 2772 XOR";
"2 1 2773 16949 21801 XOR";
"2 1 2772 16950 21802 XOR";
"2 1 2771 16951 21803 XOR";
"2 1 2709 16653 22055 XOR";
"2 1 22055 21928 8991 XOR";
"2 1 8991 8990 8989 AND";
"2 1 8989 21928 21929 XOR";
"2 1 21992 21929 2770 XOR";
"2 1 22056 21929 8988 XOR";
"2 1 16951 21929 8987 XOR";
"2 1 8988 8987 8986 AND";
"2 1 8986 21929 21930 XOR";
"2 1 21993 21930 2769 XOR";
"2 1 16952 21930 8984 XOR";
"2 1 2770 16952 21804 XOR";
"2 1 2769 16953 21805 XOR";
"2 1 2704 16653 22060 XOR";
"2 1 2705 16653 22059 XOR";
"2 1 2707 16653 22057 XOR";
"2 1 22057 21930 8985 XOR";
"2 1 8985 8984 8983 AND";
"2 1 8983 21930 21931 XOR";
"2 1 21994 21931 2768 XOR";
"2 1 16953 21931 8981 XOR";
"2 1 2768 16954 21806 XOR";
"2 1 2706 16653 22058 XOR";
"2 1 22058 21931 8982 XOR";
"2 1 8982 8981 8980 AND";
"2 1 8980 21931 21932 XOR";
"2 1 22059 21932 8979 XOR";
"2 1 21995 21932 2767 XOR";
"2 1 16954 21932 8978 XOR";
"2 1 8979 8978 8977 AND";
"2 1 8977 21932 21933 XOR";
"2 1 16955 21933 8975 XOR";
"2 1 22060 21933 8976 XOR";
"2 1 8976 8975 8974 AND";
"2 1 8974 21933 21934 XOR";
"2 1 21997 21934 2765 XOR";
"2 1 16956 21934 8972 XOR";
"2 1 21996 21933 2766 XOR";
"2 1 2767 16955 21807 XOR";
"2 1 2766 16956 21808 XOR";
"2 1 2765 16957 21809 XOR";
"2 1 2703 16653 22061 XOR";
"2 1 22061 21934 8973 XOR";
"2 1 8973 8972 8971 AND";
"2 1 8971 21934 21935 XOR";
"2 1 21998 21935 2764 XOR";
"2 1 22062 21935 8970 XOR";
"2 1 16957 21935 8969 XOR";
"2 1 8970 8969 8968 AND";
"2 1 8968 21935 21936 XOR";
"2 1 21999 21936 2763 XOR";
"2 1 16958 21936 8966 XOR";
"2 1 2764 16958 21810 XOR";
"2 1 2763 16959 21811 XOR";
"2 1 2698 16653 22066 XOR";
"2 1 2699 16653 22065 XOR";
"2 1 2701 16653 22063 XOR";
"2 1 22063 21936 8967 XOR";
"2 1 8967 8966 8965 AND";
"2 1 8965 21936 21937 XOR";
"2 1 22000 21937 2762 XOR";
"2 1 16959 21937 8963 XOR";
"2 1 2762 16960 21812 XOR";
"2 1 2700 16653 22064 XOR";
"2 1 22064 21937 8964 XOR";
"2 1 8964 8963 8962 AND";
"2 1 8962 21937 21938 XOR";
"2 1 22065 21938 8961 XOR";
"2 1 22001 21938 2761 XOR";
"2 1 16960 21938 8960 XOR";
"2 1 8961 8960 8959 AND";
"2 1 8959 21938 21939 XOR";
"2 1 16961 21939 8957 XOR";
"2 1 22066 21939 8958 XOR";
"2 1 8958 8957 8956 AND";
"2 1 8956 21939 21940 XOR";
"2 1 22003 21940 2759 XOR";
"2 1 16962 21940 8954 XOR";
"2 1 22002 21939 2760 XOR";
"2 1 2761 16961 21813 XOR";
"2 1 2760 16962 21814 XOR";
"2 1 2759 16963 21815 XOR";
"2 1 2697 16653 22067 XOR";
"2 1 22067 21940 8955 XOR";
"2 1 8955 8954 8953 AND";
"2 1 8953 21940 21941 XOR";
"2 1 22004 21941 2758 XOR";
"2 1 22068 21941 8952 XOR";
"2 1 16963 21941 8951 XOR";
"2 1 8952 8951 8950 AND";
"2 1 8950 21941 21942 XOR";
"2 1 22005 21942 2757 XOR";
"2 1 16964 21942 8948 XOR";
"2 1 2758 16964 21816 XOR";
"2 1 2757 16965 21817 XOR";
"2 1 2692 16653 22072 XOR";
"2 1 2693 16653 22071 XOR";
"2 1 2695 16653 22069 XOR";
"2 1 22069 21942 8949 XOR";
"2 1 8949 8948 8947 AND";
"2 1 8947 21942 21943 XOR";
"2 1 22006 21943 2756 XOR";
"2 1 16965 21943 8945 XOR";
"2 1 2756 16966 21818 XOR";
"2 1 2694 16653 22070 XOR";
"2 1 22070 21943 8946 XOR";
"2 1 8946 8945 8944 AND";
"2 1 8944 21943 21944 XOR";
"2 1 22071 21944 8943 XOR";
"2 1 22007 21944 2755 XOR";
"2 1 16966 21944 8942 XOR";
"2 1 8943 8942 8941 AND";
"2 1 8941 21944 21945 XOR";
"2 1 16967 21945 8939 XOR";
"2 1 22072 21945 8940 XOR";
"2 1 8940 8939 8938 AND";
"2 1 8938 21945 21946 XOR";
"2 1 22009 21946 2753 XOR";
"2 1 16968 21946 8936 XOR";
"2 1 22008 21945 2754 XOR";
"2 1 2755 16967 21819 XOR";
"2 1 2754 16968 21820 XOR";
"2 1 2753 16969 21821 XOR";
"2 1 2691 16653 22073 XOR";
"2 1 22073 21946 8937 XOR";
"2 1 8937 8936 8935 AND";
"2 1 8935 21946 21947 XOR";
"2 1 22010 21947 2752 XOR";
"2 1 22074 21947 8934 XOR";
"2 1 16969 21947 8933 XOR";
"2 1 8934 8933 8932 AND";
"2 1 8932 21947 21948 XOR";
"2 1 22011 21948 2751 XOR";
"2 1 16970 21948 8930 XOR";
"2 1 2752 16970 21822 XOR";
"2 1 2751 16971 21823 XOR";
"2 1 2686 16653 22078 XOR";
"2 1 2687 16653 22077 XOR";
"2 1 2689 16653 22075 XOR";
"2 1 22075 21948 8931 XOR";
"2 1 8931 8930 8929 AND";
"2 1 8929 21948 21949 XOR";
"2 1 22012 21949 2750 XOR";
"2 1 16971 21949 8927 XOR";
"2 1 2750 16972 21824 XOR";
"2 1 2688 16653 22076 XOR";
"2 1 22076 21949 8928 XOR";
"2 1 8928 8927 8926 AND";
"2 1 8926 21949 21950 XOR";
"2 1 22013 21950 2749 XOR";
"2 1 16972 21950 8924 XOR";
"2 1 22077 21950 8925 XOR";
"2 1 8925 8924 8923 AND";
"2 1 8923 21950 21951 XOR";
"2 1 22078 21951 8922 XOR";
"2 1 22014 21951 2748 XOR";
"2 1 16973 21951 8921 XOR";
"2 1 8922 8921 8920 AND";
"2 1 8920 21951 21952 XOR";
"2 1 16974 21952 8918 XOR";
"2 1 22015 21952 2747 XOR";
"2 1 2749 16973 21825 XOR";
"2 1 2748 16974 21826 XOR";
"2 1 2747 16975 21827 XOR";
"2 1 2685 16653 22079 XOR";
"2 1 22079 21952 8919 XOR";
"2 1 8919 8918 8917 AND";
"2 1 8917 21952 21953 XOR";
"2 1 22016 21953 2746 XOR";
"2 1 16975 21953 8915 XOR";
"2 1 22080 21953 8916 XOR";
"2 1 8916 8915 8914 AND";
"2 1 8914 21953 21954 XOR";
"2 1 16976 21954 8912 XOR";
"2 1 2746 16976 21828 XOR";
"2 1 22017 21954 2745 XOR";
"2 1 2745 16977 21829 XOR";
"2 1 2680 16653 22084 XOR";
"2 1 2681 16653 22083 XOR";
"2 1 2683 16653 22081 XOR";
"2 1 22081 21954 8913 XOR";
"2 1 8913 8912 8911 AND";
"2 1 8911 21954 21955 XOR";
"2 1 22018 21955 2744 XOR";
"2 1 16977 21955 8909 XOR";
"2 1 2744 16978 21830 XOR";
"2 1 2682 16653 22082 XOR";
"2 1 22082 21955 8910 XOR";
"2 1 8910 8909 8908 AND";
"2 1 8908 21955 21956 XOR";
"2 1 22083 21956 8907 XOR";
"2 1 22019 21956 2743 XOR";
"2 1 2743 16979 21831 XOR";
"2 1 16978 21956 8906 XOR";
"2 1 8907 8906 8905 AND";
"2 1 8905 21956 21957 XOR";
"2 1 22020 21957 2742 XOR";
"2 1 2742 16980 21832 XOR";
"2 1 16979 21957 8903 XOR";
"2 1 22084 21957 8904 XOR";
"2 1 8904 8903 8902 AND";
"2 1 8902 21957 21958 XOR";
"2 1 16980 21958 8900 XOR";
"2 1 22021 21958 2741 XOR";
"2 1 2741 16981 21833 XOR";
"2 1 2679 16653 22085 XOR";
"2 1 22085 21958 8901 XOR";
"2 1 8901 8900 8899 AND";
"2 1 8899 21958 21959 XOR";
"2 1 22022 21959 2740 XOR";
"2 1 22086 21959 8898 XOR";
"2 1 2740 16982 21834 XOR";
"2 1 16981 21959 8897 XOR";
"2 1 8898 8897 8896 AND";
"2 1 8896 21959 21960 XOR";
"2 1 22023 21960 2739 XOR";
"2 1 16982 21960 8894 XOR";
"2 1 2739 16983 21835 XOR";
"2 1 2674 16653 22090 XOR";
"2 1 2675 16653 22089 XOR";
"2 1 2677 16653 22087 XOR";
"2 1 22087 21960 8895 XOR";
"2 1 8895 8894 8893 AND";
"2 1 8893 21960 21961 XOR";
"2 1 22024 21961 2738 XOR";
"2 1 16983 21961 8891 XOR";
"2 1 2738 16984 21836 XOR";
"2 1 2676 16653 22088 XOR";
"2 1 22088 21961 8892 XOR";
"2 1 8892 8891 8890 AND";
"2 1 8890 21961 21962 XOR";
"2 1 22025 21962 2737 XOR";
"2 1 16984 21962 8888 XOR";
"2 1 2737 16985 21837 XOR";
"2 1 22089 21962 8889 XOR";
"2 1 8889 8888 8887 AND";
"2 1 8887 21962 21963 XOR";
"2 1 22026 21963 2736 XOR";
"2 1 16985 21963 8885 XOR";
"2 1 22090 21963 8886 XOR";
"2 1 2736 16986 21838 XOR";
"2 1 8886 8885 8884 AND";
"2 1 8884 21963 21964 XOR";
"2 1 16986 21964 8882 XOR";
"2 1 22027 21964 2735 XOR";
"2 1 2735 16987 21839 XOR";
"2 1 2673 16653 22091 XOR";
"2 1 22091 21964 8883 XOR";
"2 1 8883 8882 8881 AND";
"2 1 8881 21964 21965 XOR";
"2 1 22028 21965 2734 XOR";
"2 1 22092 21965 8880 XOR";
"2 1 16987 21965 8879 XOR";
"2 1 8880 8879 8878 AND";
"2 1 2734 16988 21840 XOR";
"2 1 8878 21965 21966 XOR";
"2 1 22029 21966 2733 XOR";
"2 1 2733 16989 21841 XOR";
"2 1 16988 21966 8876 XOR";
"2 1 2668 16653 22096 XOR";
"2 1 2669 16653 22095 XOR";
"2 1 2671 16653 22093 XOR";
"2 1 22093 21966 8877 XOR";
"2 1 8877 8876 8875 AND";
"2 1 8875 21966 21967 XOR";
"2 1 22030 21967 2732 XOR";
"2 1 16989 21967 8873 XOR";
"2 1 2732 16990 21842 XOR";
"2 1 2670 16653 22094 XOR";
"2 1 22094 21967 8874 XOR";
"2 1 8874 8873 8872 AND";
"2 1 8872 21967 21968 XOR";
"2 1 22095 21968 8871 XOR";
"2 1 22031 21968 2731 XOR";
"2 1 2731 16991 21843 XOR";
"2 1 16990 21968 8870 XOR";
"2 1 8871 8870 8869 AND";
"2 1 8869 21968 21969 XOR";
"2 1 22032 21969 2730 XOR";
"2 1 16991 21969 8867 XOR";
"2 1 2730 16992 21844 XOR";
"2 1 22096 21969 8868 XOR";
"2 1 8868 8867 8866 AND";
"2 1 8866 21969 21970 XOR";
"2 1 22033 21970 2729 XOR";
"2 1 2729 16993 21845 XOR";
"2 1 16992 21970 8864 XOR";
"2 1 2667 16653 22097 XOR";
"2 1 22097 21970 8865 XOR";
"2 1 8865 8864 8863 AND";
"2 1 8863 21970 21971 XOR";
"2 1 22034 21971 2728 XOR";
"2 1 22098 21971 8862 XOR";
"2 1 2728 16994 21846 XOR";
"2 1 16993 21971 8861 XOR";
"2 1 8862 8861 8860 AND";
"2 1 8860 21971 21972 XOR";
"2 1 22035 21972 2727 XOR";
"2 1 16994 21972 8858 XOR";
"2 1 2727 16995 21847 XOR";
"2 1 2662 16653 22102 XOR";
"2 1 2663 16653 22101 XOR";
"2 1 2665 16653 22099 XOR";
"2 1 22099 21972 8859 XOR";
"2 1 8859 8858 8857 AND";
"2 1 8857 21972 21973 XOR";
"2 1 16995 21973 8855 XOR";
"2 1 22036 21973 2726 XOR";
"2 1 2726 16996 21848 XOR";
"2 1 2664 16653 22100 XOR";
"2 1 22100 21973 8856 XOR";
"2 1 8856 8855 8854 AND";
"2 1 8854 21973 21974 XOR";
"2 1 22037 21974 2725 XOR";
"2 1 22101 21974 8853 XOR";
"2 1 16996 21974 8852 XOR";
"2 1 8853 8852 8851 AND";
"2 1 8851 21974 21975 XOR";
"2 1 16997 21975 8849 XOR";
"2 1 22038 21975 2724 XOR";
"2 1 22102 21975 8850 XOR";
"2 1 8850 8849 8848 AND";
"2 1 2725 16997 21849 XOR";
"2 1 2724 16998 21850 XOR";
"2 1 8848 21975 21976 XOR";
"2 1 22039 21976 2723 XOR";
"2 1 2723 16999 21851 XOR";
"2 1 16998 21976 8846 XOR";
"2 1 2661 16653 22103 XOR";
"2 1 22103 21976 8847 XOR";
"2 1 8847 8846 8845 AND";
"2 1 2660 16653 22104 XOR";
"2 1 16653 4535 17537 AND";
"2 1 2655 16653 22109 XOR";
"2 1 8845 21976 21977 XOR";
"2 1 22104 21977 8844 XOR";
"2 1 16999 21977 8843 XOR";
"2 1 22040 21977 2722 XOR";
"2 1 2722 17000 21852 XOR";
"2 1 8844 8843 8842 AND";
"2 1 8842 21977 21978 XOR";
"2 1 17000 21978 8840 XOR";
"2 1 22041 21978 2721 XOR";
"2 1 2721 17001 21853 XOR";
"2 1 2659 16653 22105 XOR";
"2 1 22105 21978 8841 XOR";
"2 1 8841 8840 8839 AND";
"2 1 8839 21978 21979 XOR";
"2 1 17001 21979 8837 XOR";
"2 1 22042 21979 2720 XOR";
"2 1 2720 17002 21854 XOR";
"2 1 22106 21979 8838 XOR";
"2 1 8838 8837 8836 AND";
"2 1 8836 21979 21980 XOR";
"2 1 17002 21980 8834 XOR";
"2 1 22107 21980 8835 XOR";
"2 1 8835 8834 8833 AND";
"2 1 22043 21980 2719 XOR";
"2 1 2719 17003 21855 XOR";
"2 1 8833 21980 21981 XOR";
"2 1 22108 21981 8832 XOR";
"2 1 22044 21981 2718 XOR";
"2 1 2718 17004 21856 XOR";
"2 1 17003 21981 8831 XOR";
"2 1 8832 8831 8830 AND";
"2 1 8830 21981 21982 XOR";
"2 1 22109 21982 8829 XOR";
"2 1 22045 21982 2717 XOR";
"2 1 2717 17005 21857 XOR";
"2 1 17004 21982 8828 XOR";
"2 1 8829 8828 8827 AND";
"2 1 8827 21982 21983 XOR";
"2 1 22046 21983 2716 XOR";
"2 1 17005 21983 8825 XOR";
"2 1 22110 21983 8826 XOR";
"2 1 8826 8825 8824 AND";
"2 1 2716 17006 21858 XOR";
"2 1 8824 21983 21984 XOR";
"2 1 22111 21984 8823 XOR";
"2 1 22047 21984 2715 XOR";
"2 1 2715 17007 21859 XOR";
"2 1 17006 21984 8822 XOR";
"2 1 8823 8822 8821 AND";
"2 1 8821 21984 21985 XOR";
"2 1 22112 21985 8820 XOR";
"2 1 22048 21985 2714 XOR";
"2 1 2714 17008 21860 XOR";
"2 1 17007 21985 8819 XOR";
"2 1 8820 8819 8818 AND";
"2 1 8818 21985 21986 XOR";
"2 1 22113 21986 8817 XOR";
"2 1 22049 21986 2713 XOR";
"2 1 2713 17009 21861 XOR";
"2 1 17008 21986 8816 XOR";
"2 1 8817 8816 8815 AND";
"2 1 8815 21986 21987 XOR";
"2 1 22050 21987 170 XOR";
"1 1 170 16652 INV";
"2 1 2716 16652 21922 XOR";
"2 1 16841 16652 21862 XOR";
"2 1 21862 16946 21736 AND";
"2 1 2770 16652 21868 XOR";
"2 1 2764 16652 21874 XOR";
"2 1 2758 16652 21880 XOR";
"2 1 2752 16652 21886 XOR";
"2 1 2746 16652 21892 XOR";
"2 1 2740 16652 21898 XOR";
"2 1 2734 16652 21904 XOR";
"2 1 2728 16652 21910 XOR";
"2 1 21799 21736 2837 XOR";
"2 1 2719 16652 21919 XOR";
"2 1 16947 21736 8813 XOR";
"2 1 2721 16652 21917 XOR";
"2 1 2714 16652 21924 XOR";
"2 1 2720 16652 21918 XOR";
"2 1 2718 16652 21920 XOR";
"2 1 2717 16652 21921 XOR";
"2 1 2715 16652 21923 XOR";
"2 1 2837 16948 21611 XOR";
"2 1 2772 16652 21866 XOR";
"2 1 2773 16652 21865 XOR";
"2 1 2775 16652 21863 XOR";
"2 1 21863 21736 8814 XOR";
"2 1 8814 8813 8812 AND";
"2 1 8812 21736 21737 XOR";
"2 1 21800 21737 2836 XOR";
"2 1 16948 21737 8810 XOR";
"2 1 2836 16949 21612 XOR";
"2 1 2774 16652 21864 XOR";
"2 1 21864 21737 8811 XOR";
"2 1 8811 8810 8809 AND";
"2 1 8809 21737 21738 XOR";
"2 1 21801 21738 2835 XOR";
"2 1 16949 21738 8807 XOR";
"2 1 21865 21738 8808 XOR";
"2 1 8808 8807 8806 AND";
"2 1 8806 21738 21739 XOR";
"2 1 21802 21739 2834 XOR";
"2 1 16950 21739 8804 XOR";
"2 1 21866 21739 8805 XOR";
"2 1 8805 8804 8803 AND";
"2 1 8803 21739 21740 XOR";
"2 1 21803 21740 2833 XOR";
"2 1 16951 21740 8801 XOR";
"2 1 2835 16950 21613 XOR";
"2 1 2834 16951 21614 XOR";
"2 1 2833 16952 21615 XOR";
"2 1 2771 16652 21867 XOR";
"2 1 21867 21740 8802 XOR";
"2 1 2766 16652 21872 XOR";
"2 1 2767 16652 21871 XOR";
"2 1 2769 16652 21869 XOR";
"2 1 2768 16652 21870 XOR";
"2 1 2765 16652 21873 XOR";
"2 1 2760 16652 21878 XOR";
"2 1 2761 16652 21877 XOR";
"2 1 2763 16652 21875 XOR";
"2 1 2762 16652 21876 XOR";
"2 1 2759 16652 21879 XOR";
"2 1 2754 16652 21884 XOR";
"2 1 2755 16652 21883 XOR";
"2 1 2757 16652 21881 XOR";
"2 1 2756 16652 21882 XOR";
"2 1 2753 16652 21885 XOR";
"2 1 2748 16652 21890 XOR";
"2 1 2749 16652 21889 XOR";
"2 1 2751 16652 21887 XOR";
"2 1 2750 16652 21888 XOR";
"2 1 2747 16652 21891 XOR";
"2 1 2742 16652 21896 XOR";
"2 1 2743 16652 21895 XOR";
"2 1 2745 16652 21893 XOR";
"2 1 2744 16652 21894 XOR";
"2 1 2741 16652 21897 XOR";
"2 1 2736 16652 21902 XOR";
"2 1 2737 16652 21901 XOR";
"2 1 2739 16652 21899 XOR";
"2 1 2738 16652 21900 XOR";
"2 1 2735 16652 21903 XOR";
"2 1 2730 16652 21908 XOR";
"2 1 2731 16652 21907 XOR";
"2 1 2733 16652 21905 XOR";
"2 1 2732 16652 21906 XOR";
"2 1 2729 16652 21909 XOR";
"2 1 2724 16652 21914 XOR";
"2 1 2725 16652 21913 XOR";
"2 1 2727 16652 21911 XOR";
"2 1 2726 16652 21912 XOR";
"2 1 2723 16652 21915 XOR";
"2 1 8802 8801 8800 AND";
"2 1 8800 21740 21741 XOR";
"2 1 21804 21741 2832 XOR";
"2 1 16952 21741 8798 XOR";
"2 1 21868 21741 8799 XOR";
"2 1 8799 8798 8797 AND";
"2 1 8797 21741 21742 XOR";
"2 1 21805 21742 2831 XOR";
"2 1 21869 21742 8796 XOR";
"2 1 16953 21742 8795 XOR";
"2 1 8796 8795 8794 AND";
"2 1 8794 21742 21743 XOR";
"2 1 21870 21743 8793 XOR";
"2 1 21806 21743 2830 XOR";
"2 1 16954 21743 8792 XOR";
"2 1 8793 8792 8791 AND";
"2 1 8791 21743 21744 XOR";
"2 1 16955 21744 8789 XOR";
"2 1 21871 21744 8790 XOR";
"2 1 8790 8789 8788 AND";
"2 1 8788 21744 21745 XOR";
"2 1 21808 21745 2828 XOR";
"2 1 16956 21745 8786 XOR";
"2 1 21872 21745 8787 XOR";
"2 1 8787 8786 8785 AND";
"2 1 2832 16953 21616 XOR";
"2 1 2831 16954 21617 XOR";
"2 1 2830 16955 21618 XOR";
"2 1 2828 16957 21620 XOR";
"2 1 16652 4535 17536 AND";
"2 1 8785 21745 21746 XOR";
"2 1 21809 21746 2827 XOR";
"2 1 21873 21746 8784 XOR";
"2 1 16957 21746 8783 XOR";
"2 1 2827 16958 21621 XOR";
"2 1 8784 8783 8782 AND";
"2 1 8782 21746 21747 XOR";
"2 1 21810 21747 2826 XOR";
"2 1 16958 21747 8780 XOR";
"2 1 2826 16959 21622 XOR";
"2 1 21874 21747 8781 XOR";
"2 1 8781 8780 8779 AND";
"2 1 8779 21747 21748 XOR";
"2 1 21811 21748 2825 XOR";
"2 1 21875 21748 8778 XOR";
"2 1 2825 16960 21623 XOR";
"2 1 16959 21748 8777 XOR";
"2 1 8778 8777 8776 AND";
"2 1 8776 21748 21749 XOR";
"2 1 21812 21749 2824 XOR";
"2 1 16960 21749 8774 XOR";
"2 1 2824 16961 21624 XOR";
"2 1 21876 21749 8775 XOR";
"2 1 8775 8774 8773 AND";
"2 1 8773 21749 21750 XOR";
"2 1 21813 21750 2823 XOR";
"2 1 21877 21750 8772 XOR";
"2 1 2823 16962 21625 XOR";
"2 1 16961 21750 8771 XOR";
"2 1 8772 8771 8770 AND";
"2 1 8770 21750 21751 XOR";
"2 1 21878 21751 8769 XOR";
"2 1 16962 21751 8768 XOR";
"2 1 8769 8768 8767 AND";
"2 1 8767 21751 21752 XOR";
"2 1 21879 21752 8766 XOR";
"2 1 16963 21752 8765 XOR";
"2 1 21814 21751 2822 XOR";
"2 1 2822 16963 21626 XOR";
"2 1 8766 8765 8764 AND";
"2 1 8764 21752 21753 XOR";
"2 1 21880 21753 8763 XOR";
"2 1 21816 21753 2820 XOR";
"2 1 16964 21753 8762 XOR";
"2 1 8763 8762 8761 AND";
"2 1 8761 21753 21754 XOR";
"2 1 21817 21754 2819 XOR";
"2 1 16965 21754 8759 XOR";
"2 1 21881 21754 8760 XOR";
"2 1 8760 8759 8758 AND";
"2 1 2820 16965 21628 XOR";
"2 1 2819 16966 21629 XOR";
"2 1 8758 21754 21755 XOR";
"2 1 16966 21755 8756 XOR";
"2 1 21818 21755 2818 XOR";
"2 1 21882 21755 8757 XOR";
"2 1 8757 8756 8755 AND";
"2 1 8755 21755 21756 XOR";
"2 1 21819 21756 2817 XOR";
"2 1 16967 21756 8753 XOR";
"2 1 21883 21756 8754 XOR";
"2 1 8754 8753 8752 AND";
"2 1 8752 21756 21757 XOR";
"2 1 16968 21757 8750 XOR";
"2 1 21884 21757 8751 XOR";
"2 1 8751 8750 8749 AND";
"2 1 2818 16967 21630 XOR";
"2 1 2817 16968 21631 XOR";
"2 1 21820 21757 2816 XOR";
"2 1 2816 16969 21632 XOR";
"2 1 8749 21757 21758 XOR";
"2 1 21821 21758 2815 XOR";
"2 1 21885 21758 8748 XOR";
"2 1 16969 21758 8747 XOR";
"2 1 8748 8747 8746 AND";
"2 1 8746 21758 21759 XOR";
"2 1 21822 21759 2814 XOR";
"2 1 21886 21759 8745 XOR";
"2 1 16970 21759 8744 XOR";
"2 1 8745 8744 8743 AND";
"2 1 8743 21759 21760 XOR";
"2 1 16971 21760 8741 XOR";
"2 1 21823 21760 2813 XOR";
"2 1 21887 21760 8742 XOR";
"2 1 8742 8741 8740 AND";
"2 1 8740 21760 21761 XOR";
"2 1 16972 21761 8738 XOR";
"2 1 2815 16970 21633 XOR";
"2 1 2814 16971 21634 XOR";
"2 1 2813 16972 21635 XOR";
"2 1 21888 21761 8739 XOR";
"2 1 8739 8738 8737 AND";
"2 1 8737 21761 21762 XOR";
"2 1 21889 21762 8736 XOR";
"2 1 16973 21762 8735 XOR";
"2 1 8736 8735 8734 AND";
"2 1 8734 21762 21763 XOR";
"2 1 21826 21763 2810 XOR";
"2 1 21890 21763 8733 XOR";
"2 1 16974 21763 8732 XOR";
"2 1 8733 8732 8731 AND";
"2 1 2810 16975 21638 XOR";
"2 1 21824 21761 2812 XOR";
"2 1 2812 16973 21636 XOR";
"2 1 8731 21763 21764 XOR";
"2 1 21827 21764 2809 XOR";
"2 1 21891 21764 8730 XOR";
"2 1 16975 21764 8729 XOR";
"2 1 8730 8729 8728 AND";
"2 1 8728 21764 21765 XOR";
"2 1 21828 21765 2808 XOR";
"2 1 21892 21765 8727 XOR";
"2 1 2809 16976 21639 XOR";
"2 1 2808 16977 21640 XOR";
"2 1 16976 21765 8726 XOR";
"2 1 8727 8726 8725 AND";
"2 1 8725 21765 21766 XOR";
"2 1 21893 21766 8724 XOR";
"2 1 16977 21766 8723 XOR";
"2 1 21829 21766 2807 XOR";
"2 1 8724 8723 8722 AND";
"2 1 8722 21766 21767 XOR";
"2 1 21830 21767 2806 XOR";
"2 1 21894 21767 8721 XOR";
"2 1 16978 21767 8720 XOR";
"2 1 8721 8720 8719 AND";
"2 1 8719 21767 21768 XOR";
"2 1 16979 21768 8717 XOR";
"2 1 21895 21768 8718 XOR";
"2 1 8718 8717 8716 AND";
"2 1 8716 21768 21769 XOR";
"2 1 21896 21769 8715 XOR";
"2 1 2807 16978 21641 XOR";
"2 1 2806 16979 21642 XOR";
"2 1 21832 21769 2804 XOR";
"2 1 2804 16981 21644 XOR";
"2 1 21831 21768 2805 XOR";
"2 1 2805 16980 21643 XOR";
"2 1 16980 21769 8714 XOR";
"2 1 8715 8714 8713 AND";
"2 1 8713 21769 21770 XOR";
"2 1 21897 21770 8712 XOR";
"2 1 16981 21770 8711 XOR";
"2 1 21833 21770 2803 XOR";
"2 1 2803 16982 21645 XOR";
"2 1 21825 21762 2811 XOR";
"2 1 2811 16974 21637 XOR";
"2 1 21815 21752 2821 XOR";
"2 1 2821 16964 21627 XOR";
"2 1 21807 21744 2829 XOR";
"2 1 2829 16956 21619 XOR";
"2 1 8712 8711 8710 AND";
"2 1 8710 21770 21771 XOR";
"2 1 21834 21771 2802 XOR";
"2 1 16982 21771 8708 XOR";
"2 1 2802 16983 21646 XOR";
"2 1 21898 21771 8709 XOR";
"2 1 8709 8708 8707 AND";
"2 1 8707 21771 21772 XOR";
"2 1 21899 21772 8706 XOR";
"2 1 16983 21772 8705 XOR";
"2 1 21835 21772 2801 XOR";
"2 1 8706 8705 8704 AND";
"2 1 2801 16984 21647 XOR";
"2 1 8704 21772 21773 XOR";
"2 1 16984 21773 8702 XOR";
"2 1 21900 21773 8703 XOR";
"2 1 8703 8702 8701 AND";
"2 1 21836 21773 2800 XOR";
"2 1 8701 21773 21774 XOR";
"2 1 16985 21774 8699 XOR";
"2 1 21901 21774 8700 XOR";
"2 1 8700 8699 8698 AND";
"2 1 21837 21774 2799 XOR";
"2 1 8698 21774 21775 XOR";
"2 1 21838 21775 2798 XOR";
"2 1 21902 21775 8697 XOR";
"2 1 16986 21775 8696 XOR";
"2 1 8697 8696 8695 AND";
"2 1 8695 21775 21776 XOR";
"2 1 21839 21776 2797 XOR";
"2 1 21903 21776 8694 XOR";
"2 1 2800 16985 21648 XOR";
"2 1 2799 16986 21649 XOR";
"2 1 2798 16987 21650 XOR";
"2 1 2797 16988 21651 XOR";
"2 1 16987 21776 8693 XOR";
"2 1 8694 8693 8692 AND";
"2 1 8692 21776 21777 XOR";
"2 1 21840 21777 2796 XOR";
"2 1 2796 16989 21652 XOR";
"2 1 16988 21777 8690 XOR";
"2 1 21904 21777 8691 XOR";
"2 1 8691 8690 8689 AND";
"2 1 8689 21777 21778 XOR";
"2 1 21841 21778 2795 XOR";
"2 1 21905 21778 8688 XOR";
"2 1 16989 21778 8687 XOR";
"2 1 2795 16990 21653 XOR";
"2 1 8688 8687 8686 AND";
"2 1 8686 21778 21779 XOR";
"2 1 21906 21779 8685 XOR";
"2 1 21842 21779 2794 XOR";
"2 1 2794 16991 21654 XOR";
"2 1 16990 21779 8684 XOR";
"2 1 8685 8684 8683 AND";
"2 1 8683 21779 21780 XOR";
"2 1 21843 21780 2793 XOR";
"2 1 16991 21780 8681 XOR";
"2 1 2793 16992 21655 XOR";
"2 1 21907 21780 8682 XOR";
"2 1 8682 8681 8680 AND";
"2 1 8680 21780 21781 XOR";
"2 1 21844 21781 2792 XOR";
"2 1 16992 21781 8678 XOR";
"2 1 2792 16993 21656 XOR";
"2 1 21908 21781 8679 XOR";
"2 1 8679 8678 8677 AND";
"2 1 8677 21781 21782 XOR";
"2 1 21909 21782 8676 XOR";
"2 1 21845 21782 2791 XOR";
"2 1 16993 21782 8675 XOR";
"2 1 8676 8675 8674 AND";
"2 1 8674 21782 21783 XOR";
"2 1 21846 21783 2790 XOR";
"2 1 16994 21783 8672 XOR";
"2 1 21910 21783 8673 XOR";
"2 1 8673 8672 8671 AND";
"2 1 8671 21783 21784 XOR";
"2 1 21847 21784 2789 XOR";
"2 1 21911 21784 8670 XOR";
"2 1 2791 16994 21657 XOR";
"2 1 2790 16995 21658 XOR";
"2 1 2789 16996 21659 XOR";
"2 1 16995 21784 8669 XOR";
"2 1 8670 8669 8668 AND";
"2 1 8668 21784 21785 XOR";
"2 1 21848 21785 2788 XOR";
"2 1 21912 21785 8667 XOR";
"2 1 16996 21785 8666 XOR";
"2 1 8667 8666 8665 AND";
"2 1 8665 21785 21786 XOR";
"2 1 16997 21786 8663 XOR";
"2 1 21913 21786 8664 XOR";
"2 1 8664 8663 8662 AND";
"2 1 8662 21786 21787 XOR";
"2 1 16998 21787 8660 XOR";
"2 1 21850 21787 2786 XOR";
"2 1 21914 21787 8661 XOR";
"2 1 8661 8660 8659 AND";
"2 1 8659 21787 21788 XOR";
"2 1 21915 21788 8658 XOR";
"2 1 2788 16997 21660 XOR";
"2 1 2786 16999 21662 XOR";
"2 1 21851 21788 2785 XOR";
"2 1 2785 17000 21663 XOR";
"2 1 21849 21786 2787 XOR";
"2 1 2787 16998 21661 XOR";
"2 1 16999 21788 8657 XOR";
"2 1 8658 8657 8656 AND";
"2 1 8656 21788 21789 XOR";
"2 1 21852 21789 2784 XOR";
"2 1 17000 21789 8654 XOR";
"2 1 2784 17001 21664 XOR";
"2 1 2722 16652 21916 XOR";
"2 1 21916 21789 8655 XOR";
"2 1 8655 8654 8653 AND";
"2 1 8653 21789 21790 XOR";
"2 1 17001 21790 8651 XOR";
"2 1 21853 21790 2783 XOR";
"2 1 2783 17002 21665 XOR";
"2 1 21917 21790 8652 XOR";
"2 1 8652 8651 8650 AND";
"2 1 8650 21790 21791 XOR";
"2 1 21854 21791 2782 XOR";
"2 1 21918 21791 8649 XOR";
"2 1 17002 21791 8648 XOR";
"2 1 8649 8648 8647 AND";
"2 1 8647 21791 21792 XOR";
"2 1 21855 21792 2781 XOR";
"2 1 17003 21792 8645 XOR";
"2 1 2781 17004 21667 XOR";
"2 1 2782 17003 21666 XOR";
"2 1 21919 21792 8646 XOR";
"2 1 8646 8645 8644 AND";
"2 1 8644 21792 21793 XOR";
"2 1 21920 21793 8643 XOR";
"2 1 21856 21793 2780 XOR";
"2 1 2780 17005 21668 XOR";
"2 1 17004 21793 8642 XOR";
"2 1 8643 8642 8641 AND";
"2 1 8641 21793 21794 XOR";
"2 1 21857 21794 2779 XOR";
"2 1 2779 17006 21669 XOR";
"2 1 21921 21794 8640 XOR";
"2 1 17005 21794 8639 XOR";
"2 1 8640 8639 8638 AND";
"2 1 8638 21794 21795 XOR";
"2 1 21858 21795 2778 XOR";
"2 1 17006 21795 8636 XOR";
"2 1 21922 21795 8637 XOR";
"2 1 8637 8636 8635 AND";
"2 1 2778 17007 21670 XOR";
"2 1 8635 21795 21796 XOR";
"2 1 21923 21796 8634 XOR";
"2 1 21859 21796 2777 XOR";
"2 1 2777 17008 21671 XOR";
"2 1 17007 21796 8633 XOR";
"2 1 8634 8633 8632 AND";
"2 1 8632 21796 21797 XOR";
"2 1 17008 21797 8630 XOR";
"2 1 21924 21797 8631 XOR";
"2 1 8631 8630 8629 AND";
"2 1 8629 21797 21798 XOR";
"2 1 21860 21797 2776 XOR";
"2 1 2776 17009 21672 XOR";
"2 1 21861 21798 171 XOR";
"1 1 171 16651 INV";
"2 1 2777 16651 21735 XOR";
"2 1 2783 16651 21729 XOR";
"2 1 16840 16651 21673 XOR";
"2 1 21673 16946 21547 AND";
"2 1 2833 16651 21679 XOR";
"2 1 2827 16651 21685 XOR";
"2 1 2821 16651 21691 XOR";
"2 1 2815 16651 21697 XOR";
"2 1 2809 16651 21703 XOR";
"2 1 2803 16651 21709 XOR";
"2 1 2797 16651 21715 XOR";
"2 1 2791 16651 21721 XOR";
"2 1 2781 16651 21731 XOR";
"2 1 2779 16651 21733 XOR";
"2 1 21610 21547 2900 XOR";
"2 1 16947 21547 8627 XOR";
"2 1 2778 16651 21734 XOR";
"2 1 2782 16651 21730 XOR";
"2 1 2900 16948 21422 XOR";
"2 1 2835 16651 21677 XOR";
"2 1 2836 16651 21676 XOR";
"2 1 2838 16651 21674 XOR";
"2 1 21674 21547 8628 XOR";
"2 1 8628 8627 8626 AND";
"2 1 8626 21547 21548 XOR";
"2 1 16948 21548 8624 XOR";
"2 1 2837 16651 21675 XOR";
"2 1 21675 21548 8625 XOR";
"2 1 8625 8624 8623 AND";
"2 1 8623 21548 21549 XOR";
"2 1 21612 21549 2898 XOR";
"2 1 16949 21549 8621 XOR";
"2 1 21676 21549 8622 XOR";
"2 1 8622 8621 8620 AND";
"2 1 2898 16950 21424 XOR";
"2 1 2834 16651 21678 XOR";
"2 1 2829 16651 21683 XOR";
"2 1 2830 16651 21682 XOR";
"2 1 2832 16651 21680 XOR";
"2 1 2831 16651 21681 XOR";
"2 1 2828 16651 21684 XOR";
"2 1 2823 16651 21689 XOR";
"2 1 2824 16651 21688 XOR";
"2 1 2826 16651 21686 XOR";
"2 1 2825 16651 21687 XOR";
"2 1 2822 16651 21690 XOR";
"2 1 2817 16651 21695 XOR";
"2 1 2818 16651 21694 XOR";
"2 1 2820 16651 21692 XOR";
"2 1 2819 16651 21693 XOR";
"2 1 2816 16651 21696 XOR";
"2 1 2811 16651 21701 XOR";
"2 1 2812 16651 21700 XOR";
"2 1 2814 16651 21698 XOR";
"2 1 2813 16651 21699 XOR";
"2 1 2810 16651 21702 XOR";
"2 1 2805 16651 21707 XOR";
"2 1 2806 16651 21706 XOR";
"2 1 2808 16651 21704 XOR";
"2 1 2807 16651 21705 XOR";
"2 1 2804 16651 21708 XOR";
"2 1 2799 16651 21713 XOR";
"2 1 2800 16651 21712 XOR";
"2 1 2802 16651 21710 XOR";
"2 1 2801 16651 21711 XOR";
"2 1 2798 16651 21714 XOR";
"2 1 2793 16651 21719 XOR";
"2 1 2794 16651 21718 XOR";
"2 1 2796 16651 21716 XOR";
"2 1 2795 16651 21717 XOR";
"2 1 2792 16651 21720 XOR";
"2 1 2787 16651 21725 XOR";
"2 1 2788 16651 21724 XOR";
"2 1 2790 16651 21722 XOR";
"2 1 2789 16651 21723 XOR";
"2 1 2786 16651 21726 XOR";
"2 1 2785 16651 21727 XOR";
"2 1 16651 4535 17535 AND";
"2 1 2780 16651 21732 XOR";
"2 1 21611 21548 2899 XOR";
"2 1 2899 16949 21423 XOR";
"2 1 8620 21549 21550 XOR";
"2 1 21613 21550 2897 XOR";
"2 1 21677 21550 8619 XOR";
"2 1 16950 21550 8618 XOR";
"2 1 2897 16951 21425 XOR";
"2 1 8619 8618 8617 AND";
"2 1 8617 21550 21551 XOR";
"2 1 21614 21551 2896 XOR";
"2 1 16951 21551 8615 XOR";
"2 1 21678 21551 8616 XOR";
"2 1 8616 8615 8614 AND";
"2 1 8614 21551 21552 XOR";
"2 1 21615 21552 2895 XOR";
"2 1 21679 21552 8613 XOR";
"2 1 16952 21552 8612 XOR";
"2 1 8613 8612 8611 AND";
"2 1 8611 21552 21553 XOR";
"2 1 21680 21553 8610 XOR";
"2 1 21616 21553 2894 XOR";
"2 1 16953 21553 8609 XOR";
"2 1 8610 8609 8608 AND";
"2 1 8608 21553 21554 XOR";
"2 1 16954 21554 8606 XOR";
"2 1 21681 21554 8607 XOR";
"2 1 8607 8606 8605 AND";
"2 1 8605 21554 21555 XOR";
"2 1 21618 21555 2892 XOR";
"2 1 16955 21555 8603 XOR";
"2 1 21682 21555 8604 XOR";
"2 1 8604 8603 8602 AND";
"2 1 21617 21554 2893 XOR";
"2 1 8602 21555 21556 XOR";
"2 1 21619 21556 2891 XOR";
"2 1 21683 21556 8601 XOR";
"2 1 16956 21556 8600 XOR";
"2 1 8601 8600 8599 AND";
"2 1 8599 21556 21557 XOR";
"2 1 21620 21557 2890 XOR";
"2 1 16957 21557 8597 XOR";
"2 1 21684 21557 8598 XOR";
"2 1 8598 8597 8596 AND";
"2 1 8596 21557 21558 XOR";
"2 1 21621 21558 2889 XOR";
"2 1 21685 21558 8595 XOR";
"2 1 2896 16952 21426 XOR";
"2 1 2895 16953 21427 XOR";
"2 1 2894 16954 21428 XOR";
"2 1 2893 16955 21429 XOR";
"2 1 2892 16956 21430 XOR";
"2 1 2891 16957 21431 XOR";
"2 1 2890 16958 21432 XOR";
"2 1 2889 16959 21433 XOR";
"2 1 16958 21558 8594 XOR";
"2 1 8595 8594 8593 AND";
"2 1 8593 21558 21559 XOR";
"2 1 21622 21559 2888 XOR";
"2 1 16959 21559 8591 XOR";
"2 1 21686 21559 8592 XOR";
"2 1 8592 8591 8590 AND";
"2 1 8590 21559 21560 XOR";
"2 1 21623 21560 2887 XOR";
"2 1 21687 21560 8589 XOR";
"2 1 16960 21560 8588 XOR";
"2 1 8589 8588 8587 AND";
"2 1 8587 21560 21561 XOR";
"2 1 21688 21561 8586 XOR";
"2 1 16961 21561 8585 XOR";
"2 1 8586 8585 8584 AND";
"2 1 21624 21561 2886 XOR";
"2 1 2888 16960 21434 XOR";
"2 1 2887 16961 21435 XOR";
"2 1 2886 16962 21436 XOR";
"2 1 8584 21561 21562 XOR";
"2 1 21625 21562 2885 XOR";
"2 1 21689 21562 8583 XOR";
"2 1 16962 21562 8582 XOR";
"2 1 8583 8582 8581 AND";
"2 1 8581 21562 21563 XOR";
"2 1 21690 21563 8580 XOR";
"2 1 21626 21563 2884 XOR";
"2 1 16963 21563 8579 XOR";
"2 1 2885 16963 21437 XOR";
"2 1 2884 16964 21438 XOR";
"2 1 8580 8579 8578 AND";
"2 1 8578 21563 21564 XOR";
"2 1 21627 21564 2883 XOR";
"2 1 21691 21564 8577 XOR";
"2 1 16964 21564 8576 XOR";
"2 1 8577 8576 8575 AND";
"2 1 8575 21564 21565 XOR";
"2 1 21692 21565 8574 XOR";
"2 1 21628 21565 2882 XOR";
"2 1 16965 21565 8573 XOR";
"2 1 8574 8573 8572 AND";
"2 1 8572 21565 21566 XOR";
"2 1 21693 21566 8571 XOR";
"2 1 2883 16965 21439 XOR";
"2 1 2882 16966 21440 XOR";
"2 1 16966 21566 8570 XOR";
"2 1 8571 8570 8569 AND";
"2 1 8569 21566 21567 XOR";
"2 1 21630 21567 2880 XOR";
"2 1 16967 21567 8567 XOR";
"2 1 21694 21567 8568 XOR";
"2 1 8568 8567 8566 AND";
"2 1 8566 21567 21568 XOR";
"2 1 21631 21568 2879 XOR";
"2 1 21695 21568 8565 XOR";
"2 1 16968 21568 8564 XOR";
"2 1 2880 16968 21442 XOR";
"2 1 2879 16969 21443 XOR";
"2 1 21629 21566 2881 XOR";
"2 1 2881 16967 21441 XOR";
"2 1 8565 8564 8563 AND";
"2 1 8563 21568 21569 XOR";
"2 1 16969 21569 8561 XOR";
"2 1 21696 21569 8562 XOR";
"2 1 21632 21569 2878 XOR";
"2 1 8562 8561 8560 AND";
"2 1 8560 21569 21570 XOR";
"2 1 16970 21570 8558 XOR";
"2 1 21633 21570 2877 XOR";
"2 1 21697 21570 8559 XOR";
"2 1 2878 16970 21444 XOR";
"2 1 2877 16971 21445 XOR";
"2 1 8559 8558 8557 AND";
"2 1 8557 21570 21571 XOR";
"2 1 21634 21571 2876 XOR";
"2 1 16971 21571 8555 XOR";
"2 1 21698 21571 8556 XOR";
"2 1 8556 8555 8554 AND";
"2 1 8554 21571 21572 XOR";
"2 1 16972 21572 8552 XOR";
"2 1 21699 21572 8553 XOR";
"2 1 2876 16972 21446 XOR";
"2 1 21635 21572 2875 XOR";
"2 1 2875 16973 21447 XOR";
"2 1 8553 8552 8551 AND";
"2 1 8551 21572 21573 XOR";
"2 1 21700 21573 8550 XOR";
"2 1 16973 21573 8549 XOR";
"2 1 8550 8549 8548 AND";
"2 1 8548 21573 21574 XOR";
"2 1 21701 21574 8547 XOR";
"2 1 16974 21574 8546 XOR";
"2 1 8547 8546 8545 AND";
"2 1 8545 21574 21575 XOR";
"2 1 21702 21575 8544 XOR";
"2 1 21638 21575 2872 XOR";
"2 1 21636 21573 2874 XOR";
"2 1 2874 16974 21448 XOR";
"2 1 2872 16976 21450 XOR";
"2 1 16975 21575 8543 XOR";
"2 1 8544 8543 8542 AND";
"2 1 8542 21575 21576 XOR";
"2 1 21639 21576 2871 XOR";
"2 1 21703 21576 8541 XOR";
"2 1 2871 16977 21451 XOR";
"2 1 16976 21576 8540 XOR";
"2 1 8541 8540 8539 AND";
"2 1 8539 21576 21577 XOR";
"2 1 21640 21577 2870 XOR";
"2 1 21704 21577 8538 XOR";
"2 1 16977 21577 8537 XOR";
"2 1 8538 8537 8536 AND";
"2 1 8536 21577 21578 XOR";
"2 1 21641 21578 2869 XOR";
"2 1 16978 21578 8534 XOR";
"2 1 21705 21578 8535 XOR";
"2 1 8535 8534 8533 AND";
"2 1 2870 16978 21452 XOR";
"2 1 2869 16979 21453 XOR";
"2 1 8533 21578 21579 XOR";
"2 1 21706 21579 8532 XOR";
"2 1 16979 21579 8531 XOR";
"2 1 8532 8531 8530 AND";
"2 1 8530 21579 21580 XOR";
"2 1 21707 21580 8529 XOR";
"2 1 16980 21580 8528 XOR";
"2 1 21643 21580 2867 XOR";
"2 1 2867 16981 21455 XOR";
"2 1 21642 21579 2868 XOR";
"2 1 2868 16980 21454 XOR";
"2 1 21637 21574 2873 XOR";
"2 1 2873 16975 21449 XOR";
"2 1 8529 8528 8527 AND";
"2 1 8527 21580 21581 XOR";
"2 1 21644 21581 2866 XOR";
"2 1 16981 21581 8525 XOR";
"2 1 2866 16982 21456 XOR";
"2 1 21708 21581 8526 XOR";
"2 1 8526 8525 8524 AND";
"2 1 8524 21581 21582 XOR";
"2 1 21645 21582 2865 XOR";
"2 1 2865 16983 21457 XOR";
"2 1 21709 21582 8523 XOR";
"2 1 16982 21582 8522 XOR";
"2 1 8523 8522 8521 AND";
"2 1 8521 21582 21583 XOR";
"2 1 21646 21583 2864 XOR";
"2 1 21710 21583 8520 XOR";
"2 1 16983 21583 8519 XOR";
"2 1 8520 8519 8518 AND";
"2 1 8518 21583 21584 XOR";
"2 1 21647 21584 2863 XOR";
"2 1 21711 21584 8517 XOR";
"2 1 2864 16984 21458 XOR";
"2 1 2863 16985 21459 XOR";
"2 1 16984 21584 8516 XOR";
"2 1 8517 8516 8515 AND";
"2 1 8515 21584 21585 XOR";
"2 1 21712 21585 8514 XOR";
"2 1 21648 21585 2862 XOR";
"2 1 16985 21585 8513 XOR";
"2 1 8514 8513 8512 AND";
"2 1 8512 21585 21586 XOR";
"2 1 21649 21586 2861 XOR";
"2 1 21713 21586 8511 XOR";
"2 1 16986 21586 8510 XOR";
"2 1 8511 8510 8509 AND";
"2 1 8509 21586 21587 XOR";
"2 1 21714 21587 8508 XOR";
"2 1 16987 21587 8507 XOR";
"2 1 21650 21587 2860 XOR";
"2 1 2862 16986 21460 XOR";
"2 1 2861 16987 21461 XOR";
"2 1 2860 16988 21462 XOR";
"2 1 8508 8507 8506 AND";
"2 1 8506 21587 21588 XOR";
"2 1 16988 21588 8504 XOR";
"2 1 21651 21588 2859 XOR";
"2 1 21715 21588 8505 XOR";
"2 1 8505 8504 8503 AND";
"2 1 8503 21588 21589 XOR";
"2 1 21716 21589 8502 XOR";
"2 1 16989 21589 8501 XOR";
"2 1 8502 8501 8500 AND";
"2 1 21652 21589 2858 XOR";
"2 1 2859 16989 21463 XOR";
"2 1 2858 16990 21464 XOR";
"2 1 8500 21589 21590 XOR";
"2 1 21653 21590 2857 XOR";
"2 1 21717 21590 8499 XOR";
"2 1 2857 16991 21465 XOR";
"2 1 16990 21590 8498 XOR";
"2 1 8499 8498 8497 AND";
"2 1 8497 21590 21591 XOR";
"2 1 21718 21591 8496 XOR";
"2 1 21654 21591 2856 XOR";
"2 1 16991 21591 8495 XOR";
"2 1 2856 16992 21466 XOR";
"2 1 8496 8495 8494 AND";
"2 1 8494 21591 21592 XOR";
"2 1 21655 21592 2855 XOR";
"2 1 2855 16993 21467 XOR";
"2 1 21719 21592 8493 XOR";
"2 1 16992 21592 8492 XOR";
"2 1 8493 8492 8491 AND";
"2 1 8491 21592 21593 XOR";
"2 1 21720 21593 8490 XOR";
"2 1 16993 21593 8489 XOR";
"2 1 8490 8489 8488 AND";
"2 1 8488 21593 21594 XOR";
"2 1 16994 21594 8486 XOR";
"2 1 21721 21594 8487 XOR";
"2 1 8487 8486 8485 AND";
"2 1 8485 21594 21595 XOR";
"2 1 21722 21595 8484 XOR";
"2 1 21658 21595 2852 XOR";
"2 1 21657 21594 2853 XOR";
"2 1 21656 21593 2854 XOR";
"2 1 16995 21595 8483 XOR";
"2 1 8484 8483 8482 AND";
"2 1 8482 21595 21596 XOR";
"2 1 21659 21596 2851 XOR";
"2 1 21723 21596 8481 XOR";
"2 1 2854 16994 21468 XOR";
"2 1 2853 16995 21469 XOR";
"2 1 2852 16996 21470 XOR";
"2 1 2851 16997 21471 XOR";
"2 1 16996 21596 8480 XOR";
"2 1 8481 8480 8479 AND";
"2 1 8479 21596 21597 XOR";
"2 1 16997 21597 8477 XOR";
"2 1 21660 21597 2850 XOR";
"2 1 21724 21597 8478 XOR";
"2 1 8478 8477 8476 AND";
"2 1 8476 21597 21598 XOR";
"2 1 21661 21598 2849 XOR";
"2 1 21725 21598 8475 XOR";
"2 1 16998 21598 8474 XOR";
"2 1 8475 8474 8473 AND";
"2 1 8473 21598 21599 XOR";
"2 1 21662 21599 2848 XOR";
"2 1 16999 21599 8471 XOR";
"2 1 21726 21599 8472 XOR";
"2 1 8472 8471 8470 AND";
"2 1 8470 21599 21600 XOR";
"2 1 21663 21600 2847 XOR";
"2 1 17000 21600 8468 XOR";
"2 1 2850 16998 21472 XOR";
"2 1 2849 16999 21473 XOR";
"2 1 2848 17000 21474 XOR";
"2 1 2847 17001 21475 XOR";
"2 1 21727 21600 8469 XOR";
"2 1 8469 8468 8467 AND";
"2 1 8467 21600 21601 XOR";
"2 1 17001 21601 8465 XOR";
"2 1 21664 21601 2846 XOR";
"2 1 2846 17002 21476 XOR";
"2 1 2784 16651 21728 XOR";
"2 1 21728 21601 8466 XOR";
"2 1 8466 8465 8464 AND";
"2 1 8464 21601 21602 XOR";
"2 1 21729 21602 8463 XOR";
"2 1 17002 21602 8462 XOR";
"2 1 8463 8462 8461 AND";
"2 1 8461 21602 21603 XOR";
"2 1 21666 21603 2844 XOR";
"2 1 21730 21603 8460 XOR";
"2 1 17003 21603 8459 XOR";
"2 1 2844 17004 21478 XOR";
"2 1 8460 8459 8458 AND";
"2 1 8458 21603 21604 XOR";
"2 1 21731 21604 8457 XOR";
"2 1 21667 21604 2843 XOR";
"2 1 2843 17005 21479 XOR";
"2 1 21665 21602 2845 XOR";
"2 1 2845 17003 21477 XOR";
"2 1 17004 21604 8456 XOR";
"2 1 8457 8456 8455 AND";
"2 1 8455 21604 21605 XOR";
"2 1 17005 21605 8453 XOR";
"2 1 21732 21605 8454 XOR";
"2 1 8454 8453 8452 AND";
"2 1 8452 21605 21606 XOR";
"2 1 21733 21606 8451 XOR";
"2 1 21669 21606 2841 XOR";
"2 1 2841 17007 21481 XOR";
"2 1 17006 21606 8450 XOR";
"2 1 8451 8450 8449 AND";
"2 1 8449 21606 21607 XOR";
"2 1 21734 21607 8448 XOR";
"2 1 21670 21607 2840 XOR";
"2 1 2840 17008 21482 XOR";
"2 1 17007 21607 8447 XOR";
"2 1 8448 8447 8446 AND";
"2 1 21668 21605 2842 XOR";
"2 1 2842 17006 21480 XOR";
"2 1 8446 21607 21608 XOR";
"2 1 21735 21608 8445 XOR";
"2 1 21671 21608 2839 XOR";
"2 1 2839 17009 21483 XOR";
"2 1 17008 21608 8444 XOR";
"2 1 8445 8444 8443 AND";
"2 1 8443 21608 21609 XOR";
"2 1 21672 21609 172 XOR";
"1 1 172 16650 INV";
"2 1 2841 16650 21545 XOR";
"2 1 2846 16650 21540 XOR";
"2 1 2901 16650 21485 XOR";
"2 1 2895 16650 21491 XOR";
"2 1 2889 16650 21497 XOR";
"2 1 2883 16650 21503 XOR";
"2 1 2877 16650 21509 XOR";
"2 1 2871 16650 21515 XOR";
"2 1 2865 16650 21521 XOR";
"2 1 2859 16650 21527 XOR";
"2 1 2853 16650 21533 XOR";
"2 1 2845 16650 21541 XOR";
"2 1 2840 16650 21546 XOR";
"2 1 2843 16650 21543 XOR";
"2 1 16839 16650 21484 XOR";
"2 1 21484 16946 21358 AND";
"2 1 21485 21358 8442 XOR";
"2 1 21421 21358 2963 XOR";
"2 1 16947 21358 8441 XOR";
"2 1 8442 8441 8440 AND";
"2 1 8440 21358 21359 XOR";
"2 1 21422 21359 2962 XOR";
"2 1 16948 21359 8438 XOR";
"2 1 2963 16948 21233 XOR";
"2 1 2962 16949 21234 XOR";
"2 1 2897 16650 21489 XOR";
"2 1 2898 16650 21488 XOR";
"2 1 2900 16650 21486 XOR";
"2 1 21486 21359 8439 XOR";
"2 1 8439 8438 8437 AND";
"2 1 8437 21359 21360 XOR";
"2 1 21423 21360 2961 XOR";
"2 1 16949 21360 8435 XOR";
"2 1 2961 16950 21235 XOR";
"2 1 2899 16650 21487 XOR";
"2 1 21487 21360 8436 XOR";
"2 1 8436 8435 8434 AND";
"2 1 8434 21360 21361 XOR";
"2 1 21424 21361 2960 XOR";
"2 1 21488 21361 8433 XOR";
"2 1 16950 21361 8432 XOR";
"2 1 8433 8432 8431 AND";
"2 1 8431 21361 21362 XOR";
"2 1 21425 21362 2959 XOR";
"2 1 16951 21362 8429 XOR";
"2 1 21489 21362 8430 XOR";
"2 1 8430 8429 8428 AND";
"2 1 8428 21362 21363 XOR";
"2 1 21426 21363 2958 XOR";
"2 1 16952 21363 8426 XOR";
"2 1 2960 16951 21236 XOR";
"2 1 2959 16952 21237 XOR";
"2 1 2958 16953 21238 XOR";
"2 1 2896 16650 21490 XOR";
"2 1 21490 21363 8427 XOR";
"2 1 8427 8426 8425 AND";
"2 1 8425 21363 21364 XOR";
"2 1 21491 21364 8424 XOR";
"2 1 21427 21364 2957 XOR";
"2 1 16953 21364 8423 XOR";
"2 1 8424 8423 8422 AND";
"2 1 8422 21364 21365 XOR";
"2 1 21428 21365 2956 XOR";
"2 1 16954 21365 8420 XOR";
"2 1 2957 16954 21239 XOR";
"2 1 2956 16955 21240 XOR";
"2 1 2891 16650 21495 XOR";
"2 1 2892 16650 21494 XOR";
"2 1 2894 16650 21492 XOR";
"2 1 21492 21365 8421 XOR";
"2 1 8421 8420 8419 AND";
"2 1 8419 21365 21366 XOR";
"2 1 21429 21366 2955 XOR";
"2 1 16955 21366 8417 XOR";
"2 1 2955 16956 21241 XOR";
"2 1 2893 16650 21493 XOR";
"2 1 21493 21366 8418 XOR";
"2 1 8418 8417 8416 AND";
"2 1 2890 16650 21496 XOR";
"2 1 2885 16650 21501 XOR";
"2 1 2886 16650 21500 XOR";
"2 1 2888 16650 21498 XOR";
"2 1 2887 16650 21499 XOR";
"2 1 2884 16650 21502 XOR";
"2 1 2879 16650 21507 XOR";
"2 1 2880 16650 21506 XOR";
"2 1 2882 16650 21504 XOR";
"2 1 2881 16650 21505 XOR";
"2 1 2878 16650 21508 XOR";
"2 1 2873 16650 21513 XOR";
"2 1 2874 16650 21512 XOR";
"2 1 2876 16650 21510 XOR";
"2 1 2875 16650 21511 XOR";
"2 1 2872 16650 21514 XOR";
"2 1 2867 16650 21519 XOR";
"2 1 2868 16650 21518 XOR";
"2 1 2870 16650 21516 XOR";
"2 1 2869 16650 21517 XOR";
"2 1 2866 16650 21520 XOR";
"2 1 2861 16650 21525 XOR";
"2 1 2862 16650 21524 XOR";
"2 1 2864 16650 21522 XOR";
"2 1 2863 16650 21523 XOR";
"2 1 2860 16650 21526 XOR";
"2 1 2855 16650 21531 XOR";
"2 1 2856 16650 21530 XOR";
"2 1 2858 16650 21528 XOR";
"2 1 2857 16650 21529 XOR";
"2 1 2854 16650 21532 XOR";
"2 1 2849 16650 21537 XOR";
"2 1 2850 16650 21536 XOR";
"2 1 2852 16650 21534 XOR";
"2 1 2851 16650 21535 XOR";
"2 1 2848 16650 21538 XOR";
"2 1 16650 4535 17534 AND";
"2 1 8416 21366 21367 XOR";
"2 1 21430 21367 2954 XOR";
"2 1 21494 21367 8415 XOR";
"2 1 16956 21367 8414 XOR";
"2 1 2954 16957 21242 XOR";
"2 1 8415 8414 8413 AND";
"2 1 8413 21367 21368 XOR";
"2 1 21431 21368 2953 XOR";
"2 1 16957 21368 8411 XOR";
"2 1 21495 21368 8412 XOR";
"2 1 8412 8411 8410 AND";
"2 1 8410 21368 21369 XOR";
"2 1 16958 21369 8408 XOR";
"2 1 21432 21369 2952 XOR";
"2 1 21496 21369 8409 XOR";
"2 1 8409 8408 8407 AND";
"2 1 8407 21369 21370 XOR";
"2 1 21497 21370 8406 XOR";
"2 1 21433 21370 2951 XOR";
"2 1 16959 21370 8405 XOR";
"2 1 8406 8405 8404 AND";
"2 1 8404 21370 21371 XOR";
"2 1 16960 21371 8402 XOR";
"2 1 21498 21371 8403 XOR";
"2 1 8403 8402 8401 AND";
"2 1 8401 21371 21372 XOR";
"2 1 21435 21372 2949 XOR";
"2 1 16961 21372 8399 XOR";
"2 1 21499 21372 8400 XOR";
"2 1 8400 8399 8398 AND";
"2 1 21434 21371 2950 XOR";
"2 1 2953 16958 21243 XOR";
"2 1 2952 16959 21244 XOR";
"2 1 2951 16960 21245 XOR";
"2 1 2950 16961 21246 XOR";
"2 1 2949 16962 21247 XOR";
"2 1 8398 21372 21373 XOR";
"2 1 16962 21373 8396 XOR";
"2 1 21436 21373 2948 XOR";
"2 1 2948 16963 21248 XOR";
"2 1 21500 21373 8397 XOR";
"2 1 8397 8396 8395 AND";
"2 1 8395 21373 21374 XOR";
"2 1 21437 21374 2947 XOR";
"2 1 2947 16964 21249 XOR";
"2 1 21501 21374 8394 XOR";
"2 1 16963 21374 8393 XOR";
"2 1 8394 8393 8392 AND";
"2 1 8392 21374 21375 XOR";
"2 1 21438 21375 2946 XOR";
"2 1 21502 21375 8391 XOR";
"2 1 2946 16965 21250 XOR";
"2 1 2842 16650 21544 XOR";
"2 1 16964 21375 8390 XOR";
"2 1 8391 8390 8389 AND";
"2 1 8389 21375 21376 XOR";
"2 1 16965 21376 8387 XOR";
"2 1 21503 21376 8388 XOR";
"2 1 8388 8387 8386 AND";
"2 1 8386 21376 21377 XOR";
"2 1 16966 21377 8384 XOR";
"2 1 21504 21377 8385 XOR";
"2 1 21440 21377 2944 XOR";
"2 1 2944 16967 21252 XOR";
"2 1 21439 21376 2945 XOR";
"2 1 2945 16966 21251 XOR";
"2 1 8385 8384 8383 AND";
"2 1 8383 21377 21378 XOR";
"2 1 21505 21378 8382 XOR";
"2 1 16967 21378 8381 XOR";
"2 1 8382 8381 8380 AND";
"2 1 8380 21378 21379 XOR";
"2 1 21506 21379 8379 XOR";
"2 1 21442 21379 2942 XOR";
"2 1 2942 16969 21254 XOR";
"2 1 16968 21379 8378 XOR";
"2 1 8379 8378 8377 AND";
"2 1 8377 21379 21380 XOR";
"2 1 21507 21380 8376 XOR";
"2 1 21443 21380 2941 XOR";
"2 1 2941 16970 21255 XOR";
"2 1 16969 21380 8375 XOR";
"2 1 8376 8375 8374 AND";
"2 1 8374 21380 21381 XOR";
"2 1 16970 21381 8372 XOR";
"2 1 21508 21381 8373 XOR";
"2 1 21444 21381 2940 XOR";
"2 1 2940 16971 21256 XOR";
"2 1 8373 8372 8371 AND";
"2 1 8371 21381 21382 XOR";
"2 1 16971 21382 8369 XOR";
"2 1 21509 21382 8370 XOR";
"2 1 8370 8369 8368 AND";
"2 1 8368 21382 21383 XOR";
"2 1 21446 21383 2938 XOR";
"2 1 16972 21383 8366 XOR";
"2 1 2938 16973 21258 XOR";
"2 1 21510 21383 8367 XOR";
"2 1 8367 8366 8365 AND";
"2 1 8365 21383 21384 XOR";
"2 1 21447 21384 2937 XOR";
"2 1 21511 21384 8364 XOR";
"2 1 16973 21384 8363 XOR";
"2 1 2937 16974 21259 XOR";
"2 1 21445 21382 2939 XOR";
"2 1 2939 16972 21257 XOR";
"2 1 8364 8363 8362 AND";
"2 1 8362 21384 21385 XOR";
"2 1 21448 21385 2936 XOR";
"2 1 21512 21385 8361 XOR";
"2 1 16974 21385 8360 XOR";
"2 1 8361 8360 8359 AND";
"2 1 8359 21385 21386 XOR";
"2 1 21513 21386 8358 XOR";
"2 1 21449 21386 2935 XOR";
"2 1 2936 16975 21260 XOR";
"2 1 2935 16976 21261 XOR";
"2 1 16975 21386 8357 XOR";
"2 1 8358 8357 8356 AND";
"2 1 8356 21386 21387 XOR";
"2 1 16976 21387 8354 XOR";
"2 1 21450 21387 2934 XOR";
"2 1 21514 21387 8355 XOR";
"2 1 8355 8354 8353 AND";
"2 1 8353 21387 21388 XOR";
"2 1 21515 21388 8352 XOR";
"2 1 21451 21388 2933 XOR";
"2 1 2934 16977 21262 XOR";
"2 1 2933 16978 21263 XOR";
"2 1 16977 21388 8351 XOR";
"2 1 8352 8351 8350 AND";
"2 1 8350 21388 21389 XOR";
"2 1 16978 21389 8348 XOR";
"2 1 21516 21389 8349 XOR";
"2 1 21452 21389 2932 XOR";
"2 1 8349 8348 8347 AND";
"2 1 8347 21389 21390 XOR";
"2 1 21517 21390 8346 XOR";
"2 1 16979 21390 8345 XOR";
"2 1 21453 21390 2931 XOR";
"2 1 2932 16979 21264 XOR";
"2 1 2931 16980 21265 XOR";
"2 1 8346 8345 8344 AND";
"2 1 8344 21390 21391 XOR";
"2 1 21518 21391 8343 XOR";
"2 1 16980 21391 8342 XOR";
"2 1 8343 8342 8341 AND";
"2 1 8341 21391 21392 XOR";
"2 1 21519 21392 8340 XOR";
"2 1 21455 21392 2929 XOR";
"2 1 16981 21392 8339 XOR";
"2 1 8340 8339 8338 AND";
"2 1 8338 21392 21393 XOR";
"2 1 16982 21393 8336 XOR";
"2 1 2929 16982 21267 XOR";
"2 1 21456 21393 2928 XOR";
"2 1 2928 16983 21268 XOR";
"2 1 21520 21393 8337 XOR";
"2 1 8337 8336 8335 AND";
"2 1 8335 21393 21394 XOR";
"2 1 21521 21394 8334 XOR";
"2 1 21457 21394 2927 XOR";
"2 1 16983 21394 8333 XOR";
"2 1 8334 8333 8332 AND";
"2 1 8332 21394 21395 XOR";
"2 1 21522 21395 8331 XOR";
"2 1 21458 21395 2926 XOR";
"2 1 16984 21395 8330 XOR";
"2 1 8331 8330 8329 AND";
"2 1 8329 21395 21396 XOR";
"2 1 21523 21396 8328 XOR";
"2 1 16985 21396 8327 XOR";
"2 1 21459 21396 2925 XOR";
"2 1 2927 16984 21269 XOR";
"2 1 2926 16985 21270 XOR";
"2 1 2925 16986 21271 XOR";
"2 1 8328 8327 8326 AND";
"2 1 8326 21396 21397 XOR";
"2 1 16986 21397 8324 XOR";
"2 1 21524 21397 8325 XOR";
"2 1 8325 8324 8323 AND";
"2 1 8323 21397 21398 XOR";
"2 1 21525 21398 8322 XOR";
"2 1 21461 21398 2923 XOR";
"2 1 16987 21398 8321 XOR";
"2 1 8322 8321 8320 AND";
"2 1 8320 21398 21399 XOR";
"2 1 21526 21399 8319 XOR";
"2 1 16988 21399 8318 XOR";
"2 1 8319 8318 8317 AND";
"2 1 8317 21399 21400 XOR";
"2 1 21527 21400 8316 XOR";
"2 1 21463 21400 2921 XOR";
"2 1 16989 21400 8315 XOR";
"2 1 8316 8315 8314 AND";
"2 1 8314 21400 21401 XOR";
"2 1 21464 21401 2920 XOR";
"2 1 16990 21401 8312 XOR";
"2 1 21528 21401 8313 XOR";
"2 1 8313 8312 8311 AND";
"2 1 8311 21401 21402 XOR";
"2 1 21465 21402 2919 XOR";
"2 1 2923 16988 21273 XOR";
"2 1 2921 16990 21275 XOR";
"2 1 2920 16991 21276 XOR";
"2 1 2919 16992 21277 XOR";
"2 1 16991 21402 8309 XOR";
"2 1 21460 21397 2924 XOR";
"2 1 2924 16987 21272 XOR";
"2 1 21529 21402 8310 XOR";
"2 1 8310 8309 8308 AND";
"2 1 8308 21402 21403 XOR";
"2 1 21530 21403 8307 XOR";
"2 1 16992 21403 8306 XOR";
"2 1 8307 8306 8305 AND";
"2 1 8305 21403 21404 XOR";
"2 1 21467 21404 2917 XOR";
"2 1 16993 21404 8303 XOR";
"2 1 21531 21404 8304 XOR";
"2 1 8304 8303 8302 AND";
"2 1 8302 21404 21405 XOR";
"2 1 16994 21405 8300 XOR";
"2 1 21468 21405 2916 XOR";
"2 1 21532 21405 8301 XOR";
"2 1 8301 8300 8299 AND";
"2 1 8299 21405 21406 XOR";
"2 1 21469 21406 2915 XOR";
"2 1 21533 21406 8298 XOR";
"2 1 21466 21403 2918 XOR";
"2 1 16995 21406 8297 XOR";
"2 1 8298 8297 8296 AND";
"2 1 8296 21406 21407 XOR";
"2 1 21470 21407 2914 XOR";
"2 1 16996 21407 8294 XOR";
"2 1 21534 21407 8295 XOR";
"2 1 8295 8294 8293 AND";
"2 1 2918 16993 21278 XOR";
"2 1 2917 16994 21279 XOR";
"2 1 2916 16995 21280 XOR";
"2 1 2915 16996 21281 XOR";
"2 1 2914 16997 21282 XOR";
"2 1 8293 21407 21408 XOR";
"2 1 16997 21408 8291 XOR";
"2 1 21535 21408 8292 XOR";
"2 1 8292 8291 8290 AND";
"2 1 8290 21408 21409 XOR";
"2 1 16998 21409 8288 XOR";
"2 1 21472 21409 2912 XOR";
"2 1 21471 21408 2913 XOR";
"2 1 2913 16998 21283 XOR";
"2 1 2912 16999 21284 XOR";
"2 1 21536 21409 8289 XOR";
"2 1 8289 8288 8287 AND";
"2 1 8287 21409 21410 XOR";
"2 1 21537 21410 8286 XOR";
"2 1 21473 21410 2911 XOR";
"2 1 16999 21410 8285 XOR";
"2 1 8286 8285 8284 AND";
"2 1 8284 21410 21411 XOR";
"2 1 17000 21411 8282 XOR";
"2 1 21538 21411 8283 XOR";
"2 1 8283 8282 8281 AND";
"2 1 8281 21411 21412 XOR";
"2 1 17001 21412 8279 XOR";
"2 1 21474 21411 2910 XOR";
"2 1 2911 17000 21285 XOR";
"2 1 2910 17001 21286 XOR";
"2 1 21475 21412 2909 XOR";
"2 1 2909 17002 21287 XOR";
"2 1 21454 21391 2930 XOR";
"2 1 2930 16981 21266 XOR";
"2 1 21462 21399 2922 XOR";
"2 1 2922 16989 21274 XOR";
"2 1 21441 21378 2943 XOR";
"2 1 2943 16968 21253 XOR";
"2 1 2844 16650 21542 XOR";
"2 1 2847 16650 21539 XOR";
"2 1 21539 21412 8280 XOR";
"2 1 8280 8279 8278 AND";
"2 1 8278 21412 21413 XOR";
"2 1 17002 21413 8276 XOR";
"2 1 21476 21413 2908 XOR";
"2 1 21540 21413 8277 XOR";
"2 1 8277 8276 8275 AND";
"2 1 8275 21413 21414 XOR";
"2 1 21477 21414 2907 XOR";
"2 1 17003 21414 8273 XOR";
"2 1 2908 17003 21288 XOR";
"2 1 2907 17004 21289 XOR";
"2 1 21541 21414 8274 XOR";
"2 1 8274 8273 8272 AND";
"2 1 8272 21414 21415 XOR";
"2 1 17004 21415 8270 XOR";
"2 1 21542 21415 8271 XOR";
"2 1 8271 8270 8269 AND";
"2 1 8269 21415 21416 XOR";
"2 1 17005 21416 8267 XOR";
"2 1 21479 21416 2905 XOR";
"2 1 21478 21415 2906 XOR";
"2 1 21543 21416 8268 XOR";
"2 1 8268 8267 8266 AND";
"2 1 2906 17005 21290 XOR";
"2 1 2905 17006 21291 XOR";
"2 1 8266 21416 21417 XOR";
"2 1 21544 21417 8265 XOR";
"2 1 21480 21417 2904 XOR";
"2 1 17006 21417 8264 XOR";
"2 1 8265 8264 8263 AND";
"2 1 8263 21417 21418 XOR";
"2 1 17007 21418 8261 XOR";
"2 1 21481 21418 2903 XOR";
"2 1 21545 21418 8262 XOR";
"2 1 8262 8261 8260 AND";
"2 1 8260 21418 21419 XOR";
"2 1 17008 21419 8258 XOR";
"2 1 21546 21419 8259 XOR";
"2 1 8259 8258 8257 AND";
"2 1 8257 21419 21420 XOR";
"2 1 21483 21420 173 XOR";
"2 1 21482 21419 2902 XOR";
"2 1 2903 17008 21293 XOR";
"2 1 2904 17007 21292 XOR";
"2 1 2902 17009 21294 XOR";
"1 1 173 16649 INV";
"2 1 2905 16649 21355 XOR";
"2 1 2903 16649 21357 XOR";
"2 1 2964 16649 21296 XOR";
"2 1 2958 16649 21302 XOR";
"2 1 2952 16649 21308 XOR";
"2 1 2946 16649 21314 XOR";
"2 1 2940 16649 21320 XOR";
"2 1 2934 16649 21326 XOR";
"2 1 2928 16649 21332 XOR";
"2 1 2922 16649 21338 XOR";
"2 1 2916 16649 21344 XOR";
"2 1 2904 16649 21356 XOR";
"2 1 16838 16649 21295 XOR";
"2 1 21295 16946 21169 AND";
"2 1 16947 21169 8255 XOR";
"2 1 21296 21169 8256 XOR";
"2 1 8256 8255 8254 AND";
"2 1 8254 21169 21170 XOR";
"2 1 21233 21170 3025 XOR";
"2 1 16948 21170 8252 XOR";
"2 1 21232 21169 3026 XOR";
"2 1 3026 16948 21044 XOR";
"2 1 3025 16949 21045 XOR";
"2 1 2960 16649 21300 XOR";
"2 1 2961 16649 21299 XOR";
"2 1 2963 16649 21297 XOR";
"2 1 21297 21170 8253 XOR";
"2 1 8253 8252 8251 AND";
"2 1 8251 21170 21171 XOR";
"2 1 21234 21171 3024 XOR";
"2 1 16949 21171 8249 XOR";
"2 1 3024 16950 21046 XOR";
"2 1 2962 16649 21298 XOR";
"2 1 21298 21171 8250 XOR";
"2 1 8250 8249 8248 AND";
"2 1 8248 21171 21172 XOR";
"2 1 21235 21172 3023 XOR";
"2 1 16950 21172 8246 XOR";
"2 1 21299 21172 8247 XOR";
"2 1 8247 8246 8245 AND";
"2 1 8245 21172 21173 XOR";
"2 1 16951 21173 8243 XOR";
"2 1 21236 21173 3022 XOR";
"2 1 21300 21173 8244 XOR";
"2 1 8244 8243 8242 AND";
"2 1 8242 21173 21174 XOR";
"2 1 21237 21174 3021 XOR";
"2 1 16952 21174 8240 XOR";
"2 1 3023 16951 21047 XOR";
"2 1 3022 16952 21048 XOR";
"2 1 3021 16953 21049 XOR";
"2 1 2959 16649 21301 XOR";
"2 1 21301 21174 8241 XOR";
"2 1 8241 8240 8239 AND";
"2 1 8239 21174 21175 XOR";
"2 1 16953 21175 8237 XOR";
"2 1 21302 21175 8238 XOR";
"2 1 8238 8237 8236 AND";
"2 1 8236 21175 21176 XOR";
"2 1 21239 21176 3019 XOR";
"2 1 16954 21176 8234 XOR";
"2 1 21238 21175 3020 XOR";
"2 1 3020 16954 21050 XOR";
"2 1 3019 16955 21051 XOR";
"2 1 2954 16649 21306 XOR";
"2 1 2955 16649 21305 XOR";
"2 1 2957 16649 21303 XOR";
"2 1 21303 21176 8235 XOR";
"2 1 8235 8234 8233 AND";
"2 1 2956 16649 21304 XOR";
"2 1 2953 16649 21307 XOR";
"2 1 2948 16649 21312 XOR";
"2 1 2949 16649 21311 XOR";
"2 1 2951 16649 21309 XOR";
"2 1 2950 16649 21310 XOR";
"2 1 2947 16649 21313 XOR";
"2 1 2942 16649 21318 XOR";
"2 1 2943 16649 21317 XOR";
"2 1 2945 16649 21315 XOR";
"2 1 2944 16649 21316 XOR";
"2 1 2941 16649 21319 XOR";
"2 1 2936 16649 21324 XOR";
"2 1 2937 16649 21323 XOR";
"2 1 2939 16649 21321 XOR";
"2 1 2938 16649 21322 XOR";
"2 1 2935 16649 21325 XOR";
"2 1 2930 16649 21330 XOR";
"2 1 2931 16649 21329 XOR";
"2 1 2933 16649 21327 XOR";
"2 1 2932 16649 21328 XOR";
"2 1 2929 16649 21331 XOR";
"2 1 2924 16649 21336 XOR";
"2 1 2925 16649 21335 XOR";
"2 1 2927 16649 21333 XOR";
"2 1 2926 16649 21334 XOR";
"2 1 2923 16649 21337 XOR";
"2 1 2918 16649 21342 XOR";
"2 1 2919 16649 21341 XOR";
"2 1 2921 16649 21339 XOR";
"2 1 2920 16649 21340 XOR";
"2 1 2917 16649 21343 XOR";
"2 1 2912 16649 21348 XOR";
"2 1 2913 16649 21347 XOR";
"2 1 2915 16649 21345 XOR";
"2 1 2914 16649 21346 XOR";
"2 1 2911 16649 21349 XOR";
"2 1 2908 16649 21352 XOR";
"2 1 2910 16649 21350 XOR";
"2 1 16649 4535 17533 AND";
"2 1 8233 21176 21177 XOR";
"2 1 21240 21177 3018 XOR";
"2 1 21304 21177 8232 XOR";
"2 1 16955 21177 8231 XOR";
"2 1 3018 16956 21052 XOR";
"2 1 8232 8231 8230 AND";
"2 1 8230 21177 21178 XOR";
"2 1 21241 21178 3017 XOR";
"2 1 16956 21178 8228 XOR";
"2 1 21305 21178 8229 XOR";
"2 1 8229 8228 8227 AND";
"2 1 8227 21178 21179 XOR";
"2 1 21242 21179 3016 XOR";
"2 1 21306 21179 8226 XOR";
"2 1 16957 21179 8225 XOR";
"2 1 8226 8225 8224 AND";
"2 1 8224 21179 21180 XOR";
"2 1 21307 21180 8223 XOR";
"2 1 21243 21180 3015 XOR";
"2 1 16958 21180 8222 XOR";
"2 1 8223 8222 8221 AND";
"2 1 8221 21180 21181 XOR";
"2 1 16959 21181 8219 XOR";
"2 1 21308 21181 8220 XOR";
"2 1 8220 8219 8218 AND";
"2 1 8218 21181 21182 XOR";
"2 1 21245 21182 3013 XOR";
"2 1 16960 21182 8216 XOR";
"2 1 21309 21182 8217 XOR";
"2 1 8217 8216 8215 AND";
"2 1 21244 21181 3014 XOR";
"2 1 8215 21182 21183 XOR";
"2 1 21310 21183 8214 XOR";
"2 1 16961 21183 8213 XOR";
"2 1 21246 21183 3012 XOR";
"2 1 8214 8213 8212 AND";
"2 1 8212 21183 21184 XOR";
"2 1 16962 21184 8210 XOR";
"2 1 21247 21184 3011 XOR";
"2 1 21311 21184 8211 XOR";
"2 1 8211 8210 8209 AND";
"2 1 8209 21184 21185 XOR";
"2 1 21248 21185 3010 XOR";
"2 1 21312 21185 8208 XOR";
"2 1 16963 21185 8207 XOR";
"2 1 8208 8207 8206 AND";
"2 1 8206 21185 21186 XOR";
"2 1 21249 21186 3009 XOR";
"2 1 16964 21186 8204 XOR";
"2 1 21313 21186 8205 XOR";
"2 1 8205 8204 8203 AND";
"2 1 8203 21186 21187 XOR";
"2 1 21314 21187 8202 XOR";
"2 1 16965 21187 8201 XOR";
"2 1 8202 8201 8200 AND";
"2 1 8200 21187 21188 XOR";
"2 1 16966 21188 8198 XOR";
"2 1 21315 21188 8199 XOR";
"2 1 8199 8198 8197 AND";
"2 1 21251 21188 3007 XOR";
"2 1 21250 21187 3008 XOR";
"2 1 3017 16957 21053 XOR";
"2 1 3016 16958 21054 XOR";
"2 1 3015 16959 21055 XOR";
"2 1 3014 16960 21056 XOR";
"2 1 3013 16961 21057 XOR";
"2 1 3012 16962 21058 XOR";
"2 1 3011 16963 21059 XOR";
"2 1 3010 16964 21060 XOR";
"2 1 3009 16965 21061 XOR";
"2 1 3008 16966 21062 XOR";
"2 1 3007 16967 21063 XOR";
"2 1 8197 21188 21189 XOR";
"2 1 21252 21189 3006 XOR";
"2 1 21316 21189 8196 XOR";
"2 1 16967 21189 8195 XOR";
"2 1 8196 8195 8194 AND";
"2 1 8194 21189 21190 XOR";
"2 1 21317 21190 8193 XOR";
"2 1 21253 21190 3005 XOR";
"2 1 16968 21190 8192 XOR";
"2 1 8193 8192 8191 AND";
"2 1 8191 21190 21191 XOR";
"2 1 16969 21191 8189 XOR";
"2 1 21254 21191 3004 XOR";
"2 1 21318 21191 8190 XOR";
"2 1 8190 8189 8188 AND";
"2 1 8188 21191 21192 XOR";
"2 1 16970 21192 8186 XOR";
"2 1 21319 21192 8187 XOR";
"2 1 8187 8186 8185 AND";
"2 1 8185 21192 21193 XOR";
"2 1 21320 21193 8184 XOR";
"2 1 16971 21193 8183 XOR";
"2 1 8184 8183 8182 AND";
"2 1 8182 21193 21194 XOR";
"2 1 21321 21194 8181 XOR";
"2 1 21257 21194 3001 XOR";
"2 1 16972 21194 8180 XOR";
"2 1 8181 8180 8179 AND";
"2 1 8179 21194 21195 XOR";
"2 1 16973 21195 8177 XOR";
"2 1 21322 21195 8178 XOR";
"2 1 8178 8177 8176 AND";
"2 1 21258 21195 3000 XOR";
"2 1 8176 21195 21196 XOR";
"2 1 16974 21196 8174 XOR";
"2 1 21323 21196 8175 XOR";
"2 1 21259 21196 2999 XOR";
"2 1 8175 8174 8173 AND";
"2 1 8173 21196 21197 XOR";
"2 1 21324 21197 8172 XOR";
"2 1 21260 21197 2998 XOR";
"2 1 3006 16968 21064 XOR";
"2 1 3005 16969 21065 XOR";
"2 1 3004 16970 21066 XOR";
"2 1 3001 16973 21069 XOR";
"2 1 3000 16974 21070 XOR";
"2 1 2999 16975 21071 XOR";
"2 1 2998 16976 21072 XOR";
"2 1 21256 21193 3002 XOR";
"2 1 3002 16972 21068 XOR";
"2 1 16975 21197 8171 XOR";
"2 1 8172 8171 8170 AND";
"2 1 8170 21197 21198 XOR";
"2 1 21325 21198 8169 XOR";
"2 1 16976 21198 8168 XOR";
"2 1 8169 8168 8167 AND";
"2 1 21261 21198 2997 XOR";
"2 1 8167 21198 21199 XOR";
"2 1 16977 21199 8165 XOR";
"2 1 21262 21199 2996 XOR";
"2 1 21326 21199 8166 XOR";
"2 1 8166 8165 8164 AND";
"2 1 8164 21199 21200 XOR";
"2 1 16978 21200 8162 XOR";
"2 1 21327 21200 8163 XOR";
"2 1 8163 8162 8161 AND";
"2 1 8161 21200 21201 XOR";
"2 1 21328 21201 8160 XOR";
"2 1 21263 21200 2995 XOR";
"2 1 21264 21201 2994 XOR";
"2 1 16979 21201 8159 XOR";
"2 1 8160 8159 8158 AND";
"2 1 8158 21201 21202 XOR";
"2 1 21265 21202 2993 XOR";
"2 1 16980 21202 8156 XOR";
"2 1 2997 16977 21073 XOR";
"2 1 2996 16978 21074 XOR";
"2 1 2995 16979 21075 XOR";
"2 1 2994 16980 21076 XOR";
"2 1 2993 16981 21077 XOR";
"2 1 21329 21202 8157 XOR";
"2 1 8157 8156 8155 AND";
"2 1 8155 21202 21203 XOR";
"2 1 16981 21203 8153 XOR";
"2 1 21266 21203 2992 XOR";
"2 1 21330 21203 8154 XOR";
"2 1 8154 8153 8152 AND";
"2 1 8152 21203 21204 XOR";
"2 1 16982 21204 8150 XOR";
"2 1 2992 16982 21078 XOR";
"2 1 21331 21204 8151 XOR";
"2 1 8151 8150 8149 AND";
"2 1 8149 21204 21205 XOR";
"2 1 16983 21205 8147 XOR";
"2 1 21332 21205 8148 XOR";
"2 1 21268 21205 2990 XOR";
"2 1 8148 8147 8146 AND";
"2 1 8146 21205 21206 XOR";
"2 1 16984 21206 8144 XOR";
"2 1 21333 21206 8145 XOR";
"2 1 8145 8144 8143 AND";
"2 1 8143 21206 21207 XOR";
"2 1 21270 21207 2988 XOR";
"2 1 16985 21207 8141 XOR";
"2 1 21334 21207 8142 XOR";
"2 1 21269 21206 2989 XOR";
"2 1 2990 16984 21080 XOR";
"2 1 2989 16985 21081 XOR";
"2 1 2988 16986 21082 XOR";
"2 1 8142 8141 8140 AND";
"2 1 8140 21207 21208 XOR";
"2 1 21271 21208 2987 XOR";
"2 1 16986 21208 8138 XOR";
"2 1 2987 16987 21083 XOR";
"2 1 21335 21208 8139 XOR";
"2 1 8139 8138 8137 AND";
"2 1 8137 21208 21209 XOR";
"2 1 21272 21209 2986 XOR";
"2 1 21336 21209 8136 XOR";
"2 1 2986 16988 21084 XOR";
"2 1 16987 21209 8135 XOR";
"2 1 8136 8135 8134 AND";
"2 1 8134 21209 21210 XOR";
"2 1 21337 21210 8133 XOR";
"2 1 21273 21210 2985 XOR";
"2 1 16988 21210 8132 XOR";
"2 1 8133 8132 8131 AND";
"2 1 8131 21210 21211 XOR";
"2 1 21274 21211 2984 XOR";
"2 1 16989 21211 8129 XOR";
"2 1 21338 21211 8130 XOR";
"2 1 8130 8129 8128 AND";
"2 1 2985 16989 21085 XOR";
"2 1 2984 16990 21086 XOR";
"2 1 8128 21211 21212 XOR";
"2 1 21275 21212 2983 XOR";
"2 1 21339 21212 8127 XOR";
"2 1 16990 21212 8126 XOR";
"2 1 8127 8126 8125 AND";
"2 1 8125 21212 21213 XOR";
"2 1 21276 21213 2982 XOR";
"2 1 16991 21213 8123 XOR";
"2 1 2983 16991 21087 XOR";
"2 1 2982 16992 21088 XOR";
"2 1 21340 21213 8124 XOR";
"2 1 8124 8123 8122 AND";
"2 1 8122 21213 21214 XOR";
"2 1 16992 21214 8120 XOR";
"2 1 21341 21214 8121 XOR";
"2 1 8121 8120 8119 AND";
"2 1 8119 21214 21215 XOR";
"2 1 21342 21215 8118 XOR";
"2 1 16993 21215 8117 XOR";
"2 1 8118 8117 8116 AND";
"2 1 8116 21215 21216 XOR";
"2 1 16994 21216 8114 XOR";
"2 1 21343 21216 8115 XOR";
"2 1 8115 8114 8113 AND";
"2 1 8113 21216 21217 XOR";
"2 1 16995 21217 8111 XOR";
"2 1 21344 21217 8112 XOR";
"2 1 21280 21217 2978 XOR";
"2 1 21278 21215 2980 XOR";
"2 1 21279 21216 2979 XOR";
"2 1 21277 21214 2981 XOR";
"2 1 8112 8111 8110 AND";
"2 1 8110 21217 21218 XOR";
"2 1 21345 21218 8109 XOR";
"2 1 21281 21218 2977 XOR";
"2 1 2981 16993 21089 XOR";
"2 1 2980 16994 21090 XOR";
"2 1 2979 16995 21091 XOR";
"2 1 2978 16996 21092 XOR";
"2 1 2977 16997 21093 XOR";
"2 1 16996 21218 8108 XOR";
"2 1 8109 8108 8107 AND";
"2 1 8107 21218 21219 XOR";
"2 1 21346 21219 8106 XOR";
"2 1 16997 21219 8105 XOR";
"2 1 8106 8105 8104 AND";
"2 1 8104 21219 21220 XOR";
"2 1 21347 21220 8103 XOR";
"2 1 21282 21219 2976 XOR";
"2 1 2976 16998 21094 XOR";
"2 1 21283 21220 2975 XOR";
"2 1 2975 16999 21095 XOR";
"2 1 16998 21220 8102 XOR";
"2 1 8103 8102 8101 AND";
"2 1 8101 21220 21221 XOR";
"2 1 16999 21221 8099 XOR";
"2 1 21284 21221 2974 XOR";
"2 1 21348 21221 8100 XOR";
"2 1 8100 8099 8098 AND";
"2 1 8098 21221 21222 XOR";
"2 1 21349 21222 8097 XOR";
"2 1 17000 21222 8096 XOR";
"2 1 8097 8096 8095 AND";
"2 1 8095 21222 21223 XOR";
"2 1 17001 21223 8093 XOR";
"2 1 21286 21223 2972 XOR";
"2 1 21285 21222 2973 XOR";
"2 1 21350 21223 8094 XOR";
"2 1 8094 8093 8092 AND";
"2 1 8092 21223 21224 XOR";
"2 1 21287 21224 2971 XOR";
"2 1 2974 17000 21096 XOR";
"2 1 2973 17001 21097 XOR";
"2 1 2972 17002 21098 XOR";
"2 1 2971 17003 21099 XOR";
"2 1 17002 21224 8090 XOR";
"2 1 21267 21204 2991 XOR";
"2 1 2991 16983 21079 XOR";
"2 1 21255 21192 3003 XOR";
"2 1 3003 16971 21067 XOR";
"2 1 2907 16649 21353 XOR";
"2 1 2906 16649 21354 XOR";
"2 1 2909 16649 21351 XOR";
"2 1 21351 21224 8091 XOR";
"2 1 8091 8090 8089 AND";
"2 1 8089 21224 21225 XOR";
"2 1 17003 21225 8087 XOR";
"2 1 21352 21225 8088 XOR";
"2 1 21288 21225 2970 XOR";
"2 1 2970 17004 21100 XOR";
"2 1 8088 8087 8086 AND";
"2 1 8086 21225 21226 XOR";
"2 1 21289 21226 2969 XOR";
"2 1 17004 21226 8084 XOR";
"2 1 21353 21226 8085 XOR";
"2 1 8085 8084 8083 AND";
"2 1 8083 21226 21227 XOR";
"2 1 21290 21227 2968 XOR";
"2 1 17005 21227 8081 XOR";
"2 1 21354 21227 8082 XOR";
"2 1 8082 8081 8080 AND";
"2 1 2969 17005 21101 XOR";
"2 1 2968 17006 21102 XOR";
"2 1 8080 21227 21228 XOR";
"2 1 17006 21228 8078 XOR";
"2 1 21355 21228 8079 XOR";
"2 1 21291 21228 2967 XOR";
"2 1 2967 17007 21103 XOR";
"2 1 8079 8078 8077 AND";
"2 1 8077 21228 21229 XOR";
"2 1 21292 21229 2966 XOR";
"2 1 21356 21229 8076 XOR";
"2 1 2966 17008 21104 XOR";
"2 1 17007 21229 8075 XOR";
"2 1 8076 8075 8074 AND";
"2 1 8074 21229 21230 XOR";
"2 1 21357 21230 8073 XOR";
"2 1 17008 21230 8072 XOR";
"2 1 8073 8072 8071 AND";
"2 1 8071 21230 21231 XOR";
"2 1 21294 21231 174 XOR";
"2 1 21293 21230 2965 XOR";
"2 1 2965 17009 21105 XOR";
"1 1 174 16648 INV";
"2 1 2966 16648 21168 XOR";
"2 1 3026 16648 21108 XOR";
"2 1 3020 16648 21114 XOR";
"2 1 3014 16648 21120 XOR";
"2 1 3008 16648 21126 XOR";
"2 1 3002 16648 21132 XOR";
"2 1 2996 16648 21138 XOR";
"2 1 2990 16648 21144 XOR";
"2 1 2984 16648 21150 XOR";
"2 1 2978 16648 21156 XOR";
"2 1 2971 16648 21163 XOR";
"2 1 2968 16648 21166 XOR";
"2 1 2970 16648 21164 XOR";
"2 1 2969 16648 21165 XOR";
"2 1 2967 16648 21167 XOR";
"2 1 16837 16648 21106 XOR";
"2 1 3027 16648 21107 XOR";
"2 1 3022 16648 21112 XOR";
"2 1 3023 16648 21111 XOR";
"2 1 3025 16648 21109 XOR";
"2 1 3024 16648 21110 XOR";
"2 1 3021 16648 21113 XOR";
"2 1 3016 16648 21118 XOR";
"2 1 3017 16648 21117 XOR";
"2 1 3019 16648 21115 XOR";
"2 1 3018 16648 21116 XOR";
"2 1 3015 16648 21119 XOR";
"2 1 3010 16648 21124 XOR";
"2 1 3011 16648 21123 XOR";
"2 1 3013 16648 21121 XOR";
"2 1 3012 16648 21122 XOR";
"2 1 3009 16648 21125 XOR";
"2 1 3004 16648 21130 XOR";
"2 1 3005 16648 21129 XOR";
"2 1 3007 16648 21127 XOR";
"2 1 3006 16648 21128 XOR";
"2 1 3003 16648 21131 XOR";
"2 1 2998 16648 21136 XOR";
"2 1 2999 16648 21135 XOR";
"2 1 3001 16648 21133 XOR";
"2 1 3000 16648 21134 XOR";
"2 1 2997 16648 21137 XOR";
"2 1 2992 16648 21142 XOR";
"2 1 2993 16648 21141 XOR";
"2 1 2995 16648 21139 XOR";
"2 1 2994 16648 21140 XOR";
"2 1 2991 16648 21143 XOR";
"2 1 2986 16648 21148 XOR";
"2 1 2987 16648 21147 XOR";
"2 1 2989 16648 21145 XOR";
"2 1 2988 16648 21146 XOR";
"2 1 2985 16648 21149 XOR";
"2 1 2980 16648 21154 XOR";
"2 1 2981 16648 21153 XOR";
"2 1 2983 16648 21151 XOR";
"2 1 2982 16648 21152 XOR";
"2 1 2979 16648 21155 XOR";
"2 1 2974 16648 21160 XOR";
"2 1 2975 16648 21159 XOR";
"2 1 2977 16648 21157 XOR";
"2 1 2976 16648 21158 XOR";
"2 1 2973 16648 21161 XOR";
"2 1 16648 4535 17532 AND";
"2 1 21106 16946 20980 AND";
"2 1 16947 20980 8069 XOR";
"2 1 21107 20980 8070 XOR";
"2 1 8070 8069 8068 AND";
"2 1 8068 20980 20981 XOR";
"2 1 21044 20981 3088 XOR";
"2 1 16948 20981 8066 XOR";
"2 1 21108 20981 8067 XOR";
"2 1 8067 8066 8065 AND";
"2 1 21043 20980 3089 XOR";
"2 1 8065 20981 20982 XOR";
"2 1 21045 20982 3087 XOR";
"2 1 21109 20982 8064 XOR";
"2 1 16949 20982 8063 XOR";
"2 1 8064 8063 8062 AND";
"2 1 8062 20982 20983 XOR";
"2 1 21046 20983 3086 XOR";
"2 1 16950 20983 8060 XOR";
"2 1 21110 20983 8061 XOR";
"2 1 8061 8060 8059 AND";
"2 1 8059 20983 20984 XOR";
"2 1 16951 20984 8057 XOR";
"2 1 21047 20984 3085 XOR";
"2 1 21111 20984 8058 XOR";
"2 1 8058 8057 8056 AND";
"2 1 8056 20984 20985 XOR";
"2 1 21112 20985 8055 XOR";
"2 1 21048 20985 3084 XOR";
"2 1 16952 20985 8054 XOR";
"2 1 8055 8054 8053 AND";
"2 1 8053 20985 20986 XOR";
"2 1 21049 20986 3083 XOR";
"2 1 16953 20986 8051 XOR";
"2 1 21113 20986 8052 XOR";
"2 1 8052 8051 8050 AND";
"2 1 8050 20986 20987 XOR";
"2 1 21050 20987 3082 XOR";
"2 1 16954 20987 8048 XOR";
"2 1 21114 20987 8049 XOR";
"2 1 8049 8048 8047 AND";
"2 1 8047 20987 20988 XOR";
"2 1 21051 20988 3081 XOR";
"2 1 21115 20988 8046 XOR";
"2 1 16955 20988 8045 XOR";
"2 1 8046 8045 8044 AND";
"2 1 8044 20988 20989 XOR";
"2 1 21052 20989 3080 XOR";
"2 1 16956 20989 8042 XOR";
"2 1 21116 20989 8043 XOR";
"2 1 8043 8042 8041 AND";
"2 1 8041 20989 20990 XOR";
"2 1 21053 20990 3079 XOR";
"2 1 21117 20990 8040 XOR";
"2 1 16957 20990 8039 XOR";
"2 1 8040 8039 8038 AND";
"2 1 8038 20990 20991 XOR";
"2 1 21118 20991 8037 XOR";
"2 1 21054 20991 3078 XOR";
"2 1 16958 20991 8036 XOR";
"2 1 8037 8036 8035 AND";
"2 1 8035 20991 20992 XOR";
"2 1 16959 20992 8033 XOR";
"2 1 21119 20992 8034 XOR";
"2 1 8034 8033 8032 AND";
"2 1 8032 20992 20993 XOR";
"2 1 21056 20993 3076 XOR";
"2 1 16960 20993 8030 XOR";
"2 1 21120 20993 8031 XOR";
"2 1 8031 8030 8029 AND";
"2 1 8029 20993 20994 XOR";
"2 1 21057 20994 3075 XOR";
"2 1 21121 20994 8028 XOR";
"2 1 16961 20994 8027 XOR";
"2 1 8028 8027 8026 AND";
"2 1 8026 20994 20995 XOR";
"2 1 21058 20995 3074 XOR";
"2 1 16962 20995 8024 XOR";
"2 1 21055 20992 3077 XOR";
"2 1 21122 20995 8025 XOR";
"2 1 8025 8024 8023 AND";
"2 1 8023 20995 20996 XOR";
"2 1 21059 20996 3073 XOR";
"2 1 21123 20996 8022 XOR";
"2 1 3089 16948 20855 XOR";
"2 1 3088 16949 20856 XOR";
"2 1 3087 16950 20857 XOR";
"2 1 3086 16951 20858 XOR";
"2 1 3085 16952 20859 XOR";
"2 1 3084 16953 20860 XOR";
"2 1 3083 16954 20861 XOR";
"2 1 3082 16955 20862 XOR";
"2 1 3081 16956 20863 XOR";
"2 1 3080 16957 20864 XOR";
"2 1 3079 16958 20865 XOR";
"2 1 3078 16959 20866 XOR";
"2 1 3077 16960 20867 XOR";
"2 1 3076 16961 20868 XOR";
"2 1 3075 16962 20869 XOR";
"2 1 3074 16963 20870 XOR";
"2 1 3073 16964 20871 XOR";
"2 1 16963 20996 8021 XOR";
"2 1 8022 8021 8020 AND";
"2 1 8020 20996 20997 XOR";
"2 1 21124 20997 8019 XOR";
"2 1 21060 20997 3072 XOR";
"2 1 16964 20997 8018 XOR";
"2 1 8019 8018 8017 AND";
"2 1 8017 20997 20998 XOR";
"2 1 21061 20998 3071 XOR";
"2 1 16965 20998 8015 XOR";
"2 1 21125 20998 8016 XOR";
"2 1 8016 8015 8014 AND";
"2 1 8014 20998 20999 XOR";
"2 1 16966 20999 8012 XOR";
"2 1 21126 20999 8013 XOR";
"2 1 8013 8012 8011 AND";
"2 1 8011 20999 21000 XOR";
"2 1 21127 21000 8010 XOR";
"2 1 21063 21000 3069 XOR";
"2 1 16967 21000 8009 XOR";
"2 1 8010 8009 8008 AND";
"2 1 8008 21000 21001 XOR";
"2 1 21128 21001 8007 XOR";
"2 1 16968 21001 8006 XOR";
"2 1 21064 21001 3068 XOR";
"2 1 8007 8006 8005 AND";
"2 1 8005 21001 21002 XOR";
"2 1 16969 21002 8003 XOR";
"2 1 21129 21002 8004 XOR";
"2 1 21065 21002 3067 XOR";
"2 1 8004 8003 8002 AND";
"2 1 8002 21002 21003 XOR";
"2 1 16970 21003 8000 XOR";
"2 1 21130 21003 8001 XOR";
"2 1 8001 8000 7999 AND";
"2 1 21066 21003 3066 XOR";
"2 1 7999 21003 21004 XOR";
"2 1 21131 21004 7998 XOR";
"2 1 21067 21004 3065 XOR";
"2 1 16971 21004 7997 XOR";
"2 1 7998 7997 7996 AND";
"2 1 7996 21004 21005 XOR";
"2 1 16972 21005 7994 XOR";
"2 1 21132 21005 7995 XOR";
"2 1 7995 7994 7993 AND";
"2 1 7993 21005 21006 XOR";
"2 1 16973 21006 7991 XOR";
"2 1 21133 21006 7992 XOR";
"2 1 7992 7991 7990 AND";
"2 1 21069 21006 3063 XOR";
"2 1 21068 21005 3064 XOR";
"2 1 7990 21006 21007 XOR";
"2 1 21070 21007 3062 XOR";
"2 1 21134 21007 7989 XOR";
"2 1 16974 21007 7988 XOR";
"2 1 7989 7988 7987 AND";
"2 1 7987 21007 21008 XOR";
"2 1 16975 21008 7985 XOR";
"2 1 21135 21008 7986 XOR";
"2 1 21071 21008 3061 XOR";
"2 1 7986 7985 7984 AND";
"2 1 7984 21008 21009 XOR";
"2 1 16976 21009 7982 XOR";
"2 1 21136 21009 7983 XOR";
"2 1 7983 7982 7981 AND";
"2 1 7981 21009 21010 XOR";
"2 1 16977 21010 7979 XOR";
"2 1 21137 21010 7980 XOR";
"2 1 21073 21010 3059 XOR";
"2 1 7980 7979 7978 AND";
"2 1 7978 21010 21011 XOR";
"2 1 16978 21011 7976 XOR";
"2 1 21138 21011 7977 XOR";
"2 1 7977 7976 7975 AND";
"2 1 7975 21011 21012 XOR";
"2 1 21072 21009 3060 XOR";
"2 1 21139 21012 7974 XOR";
"2 1 16979 21012 7973 XOR";
"2 1 7974 7973 7972 AND";
"2 1 7972 21012 21013 XOR";
"2 1 21076 21013 3056 XOR";
"2 1 21140 21013 7971 XOR";
"2 1 16980 21013 7970 XOR";
"2 1 7971 7970 7969 AND";
"2 1 21074 21011 3058 XOR";
"2 1 7969 21013 21014 XOR";
"2 1 21077 21014 3055 XOR";
"2 1 21141 21014 7968 XOR";
"2 1 21075 21012 3057 XOR";
"2 1 3072 16965 20872 XOR";
"2 1 3071 16966 20873 XOR";
"2 1 3069 16968 20875 XOR";
"2 1 3068 16969 20876 XOR";
"2 1 3067 16970 20877 XOR";
"2 1 3066 16971 20878 XOR";
"2 1 3065 16972 20879 XOR";
"2 1 3064 16973 20880 XOR";
"2 1 3063 16974 20881 XOR";
"2 1 3062 16975 20882 XOR";
"2 1 3061 16976 20883 XOR";
"2 1 3060 16977 20884 XOR";
"2 1 3059 16978 20885 XOR";
"2 1 3058 16979 20886 XOR";
"2 1 3057 16980 20887 XOR";
"2 1 3056 16981 20888 XOR";
"2 1 3055 16982 20889 XOR";
"2 1 21062 20999 3070 XOR";
"2 1 3070 16967 20874 XOR";
"2 1 16981 21014 7967 XOR";
"2 1 7968 7967 7966 AND";
"2 1 7966 21014 21015 XOR";
"2 1 21142 21015 7965 XOR";
"2 1 16982 21015 7964 XOR";
"2 1 7965 7964 7963 AND";
"2 1 21078 21015 3054 XOR";
"2 1 7963 21015 21016 XOR";
"2 1 16983 21016 7961 XOR";
"2 1 21143 21016 7962 XOR";
"2 1 7962 7961 7960 AND";
"2 1 7960 21016 21017 XOR";
"2 1 21144 21017 7959 XOR";
"2 1 21080 21017 3052 XOR";
"2 1 16984 21017 7958 XOR";
"2 1 7959 7958 7957 AND";
"2 1 7957 21017 21018 XOR";
"2 1 21081 21018 3051 XOR";
"2 1 21145 21018 7956 XOR";
"2 1 16985 21018 7955 XOR";
"2 1 7956 7955 7954 AND";
"2 1 7954 21018 21019 XOR";
"2 1 21146 21019 7953 XOR";
"2 1 21082 21019 3050 XOR";
"2 1 16986 21019 7952 XOR";
"2 1 7953 7952 7951 AND";
"2 1 7951 21019 21020 XOR";
"2 1 16987 21020 7949 XOR";
"2 1 21083 21020 3049 XOR";
"2 1 21147 21020 7950 XOR";
"2 1 7950 7949 7948 AND";
"2 1 7948 21020 21021 XOR";
"2 1 21148 21021 7947 XOR";
"2 1 21084 21021 3048 XOR";
"2 1 16988 21021 7946 XOR";
"2 1 7947 7946 7945 AND";
"2 1 7945 21021 21022 XOR";
"2 1 21085 21022 3047 XOR";
"2 1 16989 21022 7943 XOR";
"2 1 21149 21022 7944 XOR";
"2 1 7944 7943 7942 AND";
"2 1 7942 21022 21023 XOR";
"2 1 21086 21023 3046 XOR";
"2 1 16990 21023 7940 XOR";
"2 1 21150 21023 7941 XOR";
"2 1 7941 7940 7939 AND";
"2 1 7939 21023 21024 XOR";
"2 1 16991 21024 7937 XOR";
"2 1 21087 21024 3045 XOR";
"2 1 3054 16983 20890 XOR";
"2 1 3052 16985 20892 XOR";
"2 1 3051 16986 20893 XOR";
"2 1 3050 16987 20894 XOR";
"2 1 3049 16988 20895 XOR";
"2 1 3048 16989 20896 XOR";
"2 1 3047 16990 20897 XOR";
"2 1 3046 16991 20898 XOR";
"2 1 3045 16992 20899 XOR";
"2 1 21151 21024 7938 XOR";
"2 1 7938 7937 7936 AND";
"2 1 7936 21024 21025 XOR";
"2 1 16992 21025 7934 XOR";
"2 1 21088 21025 3044 XOR";
"2 1 3044 16993 20900 XOR";
"2 1 21079 21016 3053 XOR";
"2 1 3053 16984 20891 XOR";
"2 1 21152 21025 7935 XOR";
"2 1 7935 7934 7933 AND";
"2 1 7933 21025 21026 XOR";
"2 1 16993 21026 7931 XOR";
"2 1 21089 21026 3043 XOR";
"2 1 21153 21026 7932 XOR";
"2 1 7932 7931 7930 AND";
"2 1 7930 21026 21027 XOR";
"2 1 21154 21027 7929 XOR";
"2 1 21090 21027 3042 XOR";
"2 1 16994 21027 7928 XOR";
"2 1 7929 7928 7927 AND";
"2 1 7927 21027 21028 XOR";
"2 1 21091 21028 3041 XOR";
"2 1 16995 21028 7925 XOR";
"2 1 21155 21028 7926 XOR";
"2 1 7926 7925 7924 AND";
"2 1 7924 21028 21029 XOR";
"2 1 21156 21029 7923 XOR";
"2 1 21092 21029 3040 XOR";
"2 1 16996 21029 7922 XOR";
"2 1 7923 7922 7921 AND";
"2 1 7921 21029 21030 XOR";
"2 1 16997 21030 7919 XOR";
"2 1 21093 21030 3039 XOR";
"2 1 21157 21030 7920 XOR";
"2 1 7920 7919 7918 AND";
"2 1 7918 21030 21031 XOR";
"2 1 16998 21031 7916 XOR";
"2 1 21158 21031 7917 XOR";
"2 1 7917 7916 7915 AND";
"2 1 7915 21031 21032 XOR";
"2 1 16999 21032 7913 XOR";
"2 1 21095 21032 3037 XOR";
"2 1 21094 21031 3038 XOR";
"2 1 21159 21032 7914 XOR";
"2 1 7914 7913 7912 AND";
"2 1 7912 21032 21033 XOR";
"2 1 17000 21033 7910 XOR";
"2 1 21096 21033 3036 XOR";
"2 1 21160 21033 7911 XOR";
"2 1 7911 7910 7909 AND";
"2 1 7909 21033 21034 XOR";
"2 1 21097 21034 3035 XOR";
"2 1 17001 21034 7907 XOR";
"2 1 21161 21034 7908 XOR";
"2 1 7908 7907 7906 AND";
"2 1 7906 21034 21035 XOR";
"2 1 21098 21035 3034 XOR";
"2 1 17002 21035 7904 XOR";
"2 1 3043 16994 20901 XOR";
"2 1 3042 16995 20902 XOR";
"2 1 3041 16996 20903 XOR";
"2 1 3040 16997 20904 XOR";
"2 1 3039 16998 20905 XOR";
"2 1 3038 16999 20906 XOR";
"2 1 3037 17000 20907 XOR";
"2 1 3036 17001 20908 XOR";
"2 1 3035 17002 20909 XOR";
"2 1 3034 17003 20910 XOR";
"2 1 2972 16648 21162 XOR";
"2 1 21162 21035 7905 XOR";
"2 1 7905 7904 7903 AND";
"2 1 7903 21035 21036 XOR";
"2 1 21099 21036 3033 XOR";
"2 1 21163 21036 7902 XOR";
"2 1 17003 21036 7901 XOR";
"2 1 7902 7901 7900 AND";
"2 1 7900 21036 21037 XOR";
"2 1 21164 21037 7899 XOR";
"2 1 21100 21037 3032 XOR";
"2 1 17004 21037 7898 XOR";
"2 1 7899 7898 7897 AND";
"2 1 7897 21037 21038 XOR";
"2 1 17005 21038 7895 XOR";
"2 1 21101 21038 3031 XOR";
"2 1 21165 21038 7896 XOR";
"2 1 7896 7895 7894 AND";
"2 1 7894 21038 21039 XOR";
"2 1 17006 21039 7892 XOR";
"2 1 21102 21039 3030 XOR";
"2 1 3033 17004 20911 XOR";
"2 1 3031 17006 20913 XOR";
"2 1 3030 17007 20914 XOR";
"2 1 3032 17005 20912 XOR";
"2 1 21166 21039 7893 XOR";
"2 1 7893 7892 7891 AND";
"2 1 7891 21039 21040 XOR";
"2 1 17007 21040 7889 XOR";
"2 1 21103 21040 3029 XOR";
"2 1 3029 17008 20915 XOR";
"2 1 21167 21040 7890 XOR";
"2 1 7890 7889 7888 AND";
"2 1 7888 21040 21041 XOR";
"2 1 21104 21041 3028 XOR";
"2 1 21168 21041 7887 XOR";
"2 1 3028 17009 20916 XOR";
"2 1 17008 21041 7886 XOR";
"2 1 7887 7886 7885 AND";
"2 1 7885 21041 21042 XOR";
"2 1 21105 21042 175 XOR";
"1 1 175 16647 INV";
"2 1 3033 16647 20975 XOR";
"2 1 3032 16647 20976 XOR";
"2 1 3031 16647 20977 XOR";
"2 1 3030 16647 20978 XOR";
"2 1 3029 16647 20979 XOR";
"2 1 3089 16647 20919 XOR";
"2 1 3083 16647 20925 XOR";
"2 1 3077 16647 20931 XOR";
"2 1 3071 16647 20937 XOR";
"2 1 3065 16647 20943 XOR";
"2 1 3059 16647 20949 XOR";
"2 1 3053 16647 20955 XOR";
"2 1 3047 16647 20961 XOR";
"2 1 3041 16647 20967 XOR";
"2 1 16836 16647 20917 XOR";
"2 1 20917 16946 20791 AND";
"2 1 20854 20791 3152 XOR";
"2 1 16947 20791 7883 XOR";
"2 1 3152 16948 20666 XOR";
"2 1 3090 16647 20918 XOR";
"2 1 20918 20791 7884 XOR";
"2 1 7884 7883 7882 AND";
"2 1 7882 20791 20792 XOR";
"2 1 20855 20792 3151 XOR";
"2 1 20919 20792 7881 XOR";
"2 1 16948 20792 7880 XOR";
"2 1 7881 7880 7879 AND";
"2 1 7879 20792 20793 XOR";
"2 1 20856 20793 3150 XOR";
"2 1 16949 20793 7877 XOR";
"2 1 3151 16949 20667 XOR";
"2 1 3150 16950 20668 XOR";
"2 1 3085 16647 20923 XOR";
"2 1 3086 16647 20922 XOR";
"2 1 3088 16647 20920 XOR";
"2 1 20920 20793 7878 XOR";
"2 1 7878 7877 7876 AND";
"2 1 7876 20793 20794 XOR";
"2 1 20857 20794 3149 XOR";
"2 1 16950 20794 7874 XOR";
"2 1 3149 16951 20669 XOR";
"2 1 3087 16647 20921 XOR";
"2 1 20921 20794 7875 XOR";
"2 1 7875 7874 7873 AND";
"2 1 7873 20794 20795 XOR";
"2 1 20922 20795 7872 XOR";
"2 1 20858 20795 3148 XOR";
"2 1 16951 20795 7871 XOR";
"2 1 7872 7871 7870 AND";
"2 1 7870 20795 20796 XOR";
"2 1 16952 20796 7868 XOR";
"2 1 20923 20796 7869 XOR";
"2 1 7869 7868 7867 AND";
"2 1 7867 20796 20797 XOR";
"2 1 20860 20797 3146 XOR";
"2 1 16953 20797 7865 XOR";
"2 1 20859 20796 3147 XOR";
"2 1 3148 16952 20670 XOR";
"2 1 3147 16953 20671 XOR";
"2 1 3146 16954 20672 XOR";
"2 1 3084 16647 20924 XOR";
"2 1 20924 20797 7866 XOR";
"2 1 7866 7865 7864 AND";
"2 1 7864 20797 20798 XOR";
"2 1 20861 20798 3145 XOR";
"2 1 20925 20798 7863 XOR";
"2 1 16954 20798 7862 XOR";
"2 1 7863 7862 7861 AND";
"2 1 7861 20798 20799 XOR";
"2 1 20862 20799 3144 XOR";
"2 1 16955 20799 7859 XOR";
"2 1 3145 16955 20673 XOR";
"2 1 3144 16956 20674 XOR";
"2 1 3079 16647 20929 XOR";
"2 1 3080 16647 20928 XOR";
"2 1 3082 16647 20926 XOR";
"2 1 20926 20799 7860 XOR";
"2 1 7860 7859 7858 AND";
"2 1 7858 20799 20800 XOR";
"2 1 20863 20800 3143 XOR";
"2 1 16956 20800 7856 XOR";
"2 1 3143 16957 20675 XOR";
"2 1 3081 16647 20927 XOR";
"2 1 20927 20800 7857 XOR";
"2 1 7857 7856 7855 AND";
"2 1 7855 20800 20801 XOR";
"2 1 20928 20801 7854 XOR";
"2 1 20864 20801 3142 XOR";
"2 1 16957 20801 7853 XOR";
"2 1 7854 7853 7852 AND";
"2 1 7852 20801 20802 XOR";
"2 1 16958 20802 7850 XOR";
"2 1 20929 20802 7851 XOR";
"2 1 7851 7850 7849 AND";
"2 1 7849 20802 20803 XOR";
"2 1 20866 20803 3140 XOR";
"2 1 16959 20803 7847 XOR";
"2 1 20865 20802 3141 XOR";
"2 1 3142 16958 20676 XOR";
"2 1 3141 16959 20677 XOR";
"2 1 3140 16960 20678 XOR";
"2 1 3078 16647 20930 XOR";
"2 1 20930 20803 7848 XOR";
"2 1 7848 7847 7846 AND";
"2 1 7846 20803 20804 XOR";
"2 1 20867 20804 3139 XOR";
"2 1 20931 20804 7845 XOR";
"2 1 16960 20804 7844 XOR";
"2 1 7845 7844 7843 AND";
"2 1 7843 20804 20805 XOR";
"2 1 20868 20805 3138 XOR";
"2 1 16961 20805 7841 XOR";
"2 1 3139 16961 20679 XOR";
"2 1 3138 16962 20680 XOR";
"2 1 3073 16647 20935 XOR";
"2 1 3074 16647 20934 XOR";
"2 1 3076 16647 20932 XOR";
"2 1 20932 20805 7842 XOR";
"2 1 7842 7841 7840 AND";
"2 1 7840 20805 20806 XOR";
"2 1 20869 20806 3137 XOR";
"2 1 16962 20806 7838 XOR";
"2 1 3137 16963 20681 XOR";
"2 1 3075 16647 20933 XOR";
"2 1 20933 20806 7839 XOR";
"2 1 7839 7838 7837 AND";
"2 1 7837 20806 20807 XOR";
"2 1 20934 20807 7836 XOR";
"2 1 20870 20807 3136 XOR";
"2 1 16963 20807 7835 XOR";
"2 1 7836 7835 7834 AND";
"2 1 7834 20807 20808 XOR";
"2 1 16964 20808 7832 XOR";
"2 1 20935 20808 7833 XOR";
"2 1 7833 7832 7831 AND";
"2 1 7831 20808 20809 XOR";
"2 1 20872 20809 3134 XOR";
"2 1 16965 20809 7829 XOR";
"2 1 20871 20808 3135 XOR";
"2 1 3136 16964 20682 XOR";
"2 1 3135 16965 20683 XOR";
"2 1 3134 16966 20684 XOR";
"2 1 3072 16647 20936 XOR";
"2 1 20936 20809 7830 XOR";
"2 1 7830 7829 7828 AND";
"2 1 7828 20809 20810 XOR";
"2 1 20873 20810 3133 XOR";
"2 1 20937 20810 7827 XOR";
"2 1 16966 20810 7826 XOR";
"2 1 7827 7826 7825 AND";
"2 1 7825 20810 20811 XOR";
"2 1 20874 20811 3132 XOR";
"2 1 16967 20811 7823 XOR";
"2 1 3133 16967 20685 XOR";
"2 1 3132 16968 20686 XOR";
"2 1 3067 16647 20941 XOR";
"2 1 3068 16647 20940 XOR";
"2 1 3070 16647 20938 XOR";
"2 1 20938 20811 7824 XOR";
"2 1 7824 7823 7822 AND";
"2 1 7822 20811 20812 XOR";
"2 1 20875 20812 3131 XOR";
"2 1 16968 20812 7820 XOR";
"2 1 3131 16969 20687 XOR";
"2 1 3069 16647 20939 XOR";
"2 1 20939 20812 7821 XOR";
"2 1 7821 7820 7819 AND";
"2 1 7819 20812 20813 XOR";
"2 1 20940 20813 7818 XOR";
"2 1 20876 20813 3130 XOR";
"2 1 16969 20813 7817 XOR";
"2 1 7818 7817 7816 AND";
"2 1 7816 20813 20814 XOR";
"2 1 16970 20814 7814 XOR";
"2 1 20941 20814 7815 XOR";
"2 1 7815 7814 7813 AND";
"2 1 7813 20814 20815 XOR";
"2 1 20878 20815 3128 XOR";
"2 1 16971 20815 7811 XOR";
"2 1 20877 20814 3129 XOR";
"2 1 3130 16970 20688 XOR";
"2 1 3129 16971 20689 XOR";
"2 1 3128 16972 20690 XOR";
"2 1 3066 16647 20942 XOR";
"2 1 20942 20815 7812 XOR";
"2 1 7812 7811 7810 AND";
"2 1 7810 20815 20816 XOR";
"2 1 20879 20816 3127 XOR";
"2 1 20943 20816 7809 XOR";
"2 1 16972 20816 7808 XOR";
"2 1 7809 7808 7807 AND";
"2 1 7807 20816 20817 XOR";
"2 1 16973 20817 7805 XOR";
"2 1 20880 20817 3126 XOR";
"2 1 3127 16973 20691 XOR";
"2 1 3126 16974 20692 XOR";
"2 1 3061 16647 20947 XOR";
"2 1 3062 16647 20946 XOR";
"2 1 3064 16647 20944 XOR";
"2 1 20944 20817 7806 XOR";
"2 1 7806 7805 7804 AND";
"2 1 7804 20817 20818 XOR";
"2 1 16974 20818 7802 XOR";
"2 1 20881 20818 3125 XOR";
"2 1 3125 16975 20693 XOR";
"2 1 3063 16647 20945 XOR";
"2 1 20945 20818 7803 XOR";
"2 1 7803 7802 7801 AND";
"2 1 7801 20818 20819 XOR";
"2 1 20946 20819 7800 XOR";
"2 1 20882 20819 3124 XOR";
"2 1 3124 16976 20694 XOR";
"2 1 16975 20819 7799 XOR";
"2 1 7800 7799 7798 AND";
"2 1 7798 20819 20820 XOR";
"2 1 20883 20820 3123 XOR";
"2 1 16976 20820 7796 XOR";
"2 1 3123 16977 20695 XOR";
"2 1 20947 20820 7797 XOR";
"2 1 7797 7796 7795 AND";
"2 1 7795 20820 20821 XOR";
"2 1 20884 20821 3122 XOR";
"2 1 3122 16978 20696 XOR";
"2 1 16977 20821 7793 XOR";
"2 1 3060 16647 20948 XOR";
"2 1 20948 20821 7794 XOR";
"2 1 7794 7793 7792 AND";
"2 1 7792 20821 20822 XOR";
"2 1 20885 20822 3121 XOR";
"2 1 20949 20822 7791 XOR";
"2 1 16978 20822 7790 XOR";
"2 1 7791 7790 7789 AND";
"2 1 7789 20822 20823 XOR";
"2 1 20886 20823 3120 XOR";
"2 1 16979 20823 7787 XOR";
"2 1 3121 16979 20697 XOR";
"2 1 3120 16980 20698 XOR";
"2 1 3055 16647 20953 XOR";
"2 1 3056 16647 20952 XOR";
"2 1 3058 16647 20950 XOR";
"2 1 20950 20823 7788 XOR";
"2 1 7788 7787 7786 AND";
"2 1 7786 20823 20824 XOR";
"2 1 16980 20824 7784 XOR";
"2 1 20887 20824 3119 XOR";
"2 1 3119 16981 20699 XOR";
"2 1 3057 16647 20951 XOR";
"2 1 20951 20824 7785 XOR";
"2 1 7785 7784 7783 AND";
"2 1 7783 20824 20825 XOR";
"2 1 16981 20825 7781 XOR";
"2 1 20888 20825 3118 XOR";
"2 1 3118 16982 20700 XOR";
"2 1 20952 20825 7782 XOR";
"2 1 7782 7781 7780 AND";
"2 1 7780 20825 20826 XOR";
"2 1 20889 20826 3117 XOR";
"2 1 16982 20826 7778 XOR";
"2 1 20953 20826 7779 XOR";
"2 1 7779 7778 7777 AND";
"2 1 7777 20826 20827 XOR";
"2 1 20890 20827 3116 XOR";
"2 1 16983 20827 7775 XOR";
"2 1 3117 16983 20701 XOR";
"2 1 3116 16984 20702 XOR";
"2 1 3054 16647 20954 XOR";
"2 1 20954 20827 7776 XOR";
"2 1 7776 7775 7774 AND";
"2 1 7774 20827 20828 XOR";
"2 1 16984 20828 7772 XOR";
"2 1 20891 20828 3115 XOR";
"2 1 3115 16985 20703 XOR";
"2 1 20955 20828 7773 XOR";
"2 1 7773 7772 7771 AND";
"2 1 7771 20828 20829 XOR";
"2 1 20892 20829 3114 XOR";
"2 1 3114 16986 20704 XOR";
"2 1 16985 20829 7769 XOR";
"2 1 3049 16647 20959 XOR";
"2 1 3050 16647 20958 XOR";
"2 1 3052 16647 20956 XOR";
"2 1 20956 20829 7770 XOR";
"2 1 7770 7769 7768 AND";
"2 1 7768 20829 20830 XOR";
"2 1 16986 20830 7766 XOR";
"2 1 20893 20830 3113 XOR";
"2 1 3113 16987 20705 XOR";
"2 1 3051 16647 20957 XOR";
"2 1 20957 20830 7767 XOR";
"2 1 7767 7766 7765 AND";
"2 1 7765 20830 20831 XOR";
"2 1 20894 20831 3112 XOR";
"2 1 3112 16988 20706 XOR";
"2 1 20958 20831 7764 XOR";
"2 1 16987 20831 7763 XOR";
"2 1 7764 7763 7762 AND";
"2 1 7762 20831 20832 XOR";
"2 1 20959 20832 7761 XOR";
"2 1 20895 20832 3111 XOR";
"2 1 3111 16989 20707 XOR";
"2 1 16988 20832 7760 XOR";
"2 1 7761 7760 7759 AND";
"2 1 7759 20832 20833 XOR";
"2 1 16989 20833 7757 XOR";
"2 1 20896 20833 3110 XOR";
"2 1 3110 16990 20708 XOR";
"2 1 3048 16647 20960 XOR";
"2 1 20960 20833 7758 XOR";
"2 1 7758 7757 7756 AND";
"2 1 7756 20833 20834 XOR";
"2 1 20897 20834 3109 XOR";
"2 1 16990 20834 7754 XOR";
"2 1 3109 16991 20709 XOR";
"2 1 20961 20834 7755 XOR";
"2 1 7755 7754 7753 AND";
"2 1 7753 20834 20835 XOR";
"2 1 16991 20835 7751 XOR";
"2 1 20898 20835 3108 XOR";
"2 1 3108 16992 20710 XOR";
"2 1 3043 16647 20965 XOR";
"2 1 3044 16647 20964 XOR";
"2 1 3046 16647 20962 XOR";
"2 1 20962 20835 7752 XOR";
"2 1 7752 7751 7750 AND";
"2 1 7750 20835 20836 XOR";
"2 1 16992 20836 7748 XOR";
"2 1 20899 20836 3107 XOR";
"2 1 3107 16993 20711 XOR";
"2 1 3045 16647 20963 XOR";
"2 1 20963 20836 7749 XOR";
"2 1 7749 7748 7747 AND";
"2 1 7747 20836 20837 XOR";
"2 1 20900 20837 3106 XOR";
"2 1 3106 16994 20712 XOR";
"2 1 20964 20837 7746 XOR";
"2 1 16993 20837 7745 XOR";
"2 1 7746 7745 7744 AND";
"2 1 7744 20837 20838 XOR";
"2 1 20901 20838 3105 XOR";
"2 1 3105 16995 20713 XOR";
"2 1 16994 20838 7742 XOR";
"2 1 20965 20838 7743 XOR";
"2 1 7743 7742 7741 AND";
"2 1 7741 20838 20839 XOR";
"2 1 16995 20839 7739 XOR";
"2 1 20902 20839 3104 XOR";
"2 1 3104 16996 20714 XOR";
"2 1 3042 16647 20966 XOR";
"2 1 20966 20839 7740 XOR";
"2 1 7740 7739 7738 AND";
"2 1 7738 20839 20840 XOR";
"2 1 20903 20840 3103 XOR";
"2 1 20967 20840 7737 XOR";
"2 1 16996 20840 7736 XOR";
"2 1 7737 7736 7735 AND";
"2 1 7735 20840 20841 XOR";
"2 1 20904 20841 3102 XOR";
"2 1 16997 20841 7733 XOR";
"2 1 3103 16997 20715 XOR";
"2 1 3102 16998 20716 XOR";
"2 1 3037 16647 20971 XOR";
"2 1 3038 16647 20970 XOR";
"2 1 3040 16647 20968 XOR";
"2 1 20968 20841 7734 XOR";
"2 1 7734 7733 7732 AND";
"2 1 7732 20841 20842 XOR";
"2 1 20905 20842 3101 XOR";
"2 1 16998 20842 7730 XOR";
"2 1 3101 16999 20717 XOR";
"2 1 3039 16647 20969 XOR";
"2 1 20969 20842 7731 XOR";
"2 1 7731 7730 7729 AND";
"2 1 7729 20842 20843 XOR";
"2 1 16999 20843 7727 XOR";
"2 1 20906 20843 3100 XOR";
"2 1 20970 20843 7728 XOR";
"2 1 3100 17000 20718 XOR";
"2 1 7728 7727 7726 AND";
"2 1 7726 20843 20844 XOR";
"2 1 20907 20844 3099 XOR";
"2 1 17000 20844 7724 XOR";
"2 1 20971 20844 7725 XOR";
"2 1 7725 7724 7723 AND";
"2 1 3099 17001 20719 XOR";
"2 1 7723 20844 20845 XOR";
"2 1 17001 20845 7721 XOR";
"2 1 20908 20845 3098 XOR";
"2 1 3098 17002 20720 XOR";
"2 1 3036 16647 20972 XOR";
"2 1 20972 20845 7722 XOR";
"2 1 7722 7721 7720 AND";
"2 1 3035 16647 20973 XOR";
"2 1 7720 20845 20846 XOR";
"2 1 20973 20846 7719 XOR";
"2 1 17002 20846 7718 XOR";
"2 1 20909 20846 3097 XOR";
"2 1 3097 17003 20721 XOR";
"2 1 16647 4535 17531 AND";
"2 1 7719 7718 7717 AND";
"2 1 7717 20846 20847 XOR";
"2 1 20910 20847 3096 XOR";
"2 1 3096 17004 20722 XOR";
"2 1 17003 20847 7715 XOR";
"2 1 3034 16647 20974 XOR";
"2 1 20974 20847 7716 XOR";
"2 1 7716 7715 7714 AND";
"2 1 7714 20847 20848 XOR";
"2 1 20975 20848 7713 XOR";
"2 1 20911 20848 3095 XOR";
"2 1 17004 20848 7712 XOR";
"2 1 3095 17005 20723 XOR";
"2 1 7713 7712 7711 AND";
"2 1 7711 20848 20849 XOR";
"2 1 20976 20849 7710 XOR";
"2 1 20912 20849 3094 XOR";
"2 1 3094 17006 20724 XOR";
"2 1 17005 20849 7709 XOR";
"2 1 7710 7709 7708 AND";
"2 1 7708 20849 20850 XOR";
"2 1 17006 20850 7706 XOR";
"2 1 20977 20850 7707 XOR";
"2 1 7707 7706 7705 AND";
"2 1 7705 20850 20851 XOR";
"2 1 20914 20851 3092 XOR";
"2 1 3092 17008 20726 XOR";
"2 1 20978 20851 7704 XOR";
"2 1 17007 20851 7703 XOR";
"2 1 7704 7703 7702 AND";
"2 1 7702 20851 20852 XOR";
"2 1 20915 20852 3091 XOR";
"2 1 3091 17009 20727 XOR";
"2 1 20979 20852 7701 XOR";
"2 1 17008 20852 7700 XOR";
"2 1 7701 7700 7699 AND";
"2 1 7699 20852 20853 XOR";
"2 1 20916 20853 176 XOR";
"1 1 176 16646 INV";
"2 1 3096 16646 20786 XOR";
"2 1 3092 16646 20790 XOR";
"2 1 3151 16646 20731 XOR";
"2 1 3145 16646 20737 XOR";
"2 1 3139 16646 20743 XOR";
"2 1 3133 16646 20749 XOR";
"2 1 3127 16646 20755 XOR";
"2 1 3121 16646 20761 XOR";
"2 1 3115 16646 20767 XOR";
"2 1 3109 16646 20773 XOR";
"2 1 3103 16646 20779 XOR";
"2 1 3095 16646 20787 XOR";
"2 1 3153 16646 20729 XOR";
"2 1 16835 16646 20728 XOR";
"2 1 20728 16946 20602 AND";
"2 1 20665 20602 3215 XOR";
"2 1 16947 20602 7697 XOR";
"2 1 20729 20602 7698 XOR";
"2 1 7698 7697 7696 AND";
"2 1 7696 20602 20603 XOR";
"2 1 20666 20603 3214 XOR";
"2 1 16948 20603 7694 XOR";
"2 1 3215 16948 20477 XOR";
"2 1 3214 16949 20478 XOR";
"2 1 3152 16646 20730 XOR";
"2 1 20730 20603 7695 XOR";
"2 1 3147 16646 20735 XOR";
"2 1 3148 16646 20734 XOR";
"2 1 3150 16646 20732 XOR";
"2 1 3149 16646 20733 XOR";
"2 1 3146 16646 20736 XOR";
"2 1 3141 16646 20741 XOR";
"2 1 3142 16646 20740 XOR";
"2 1 3144 16646 20738 XOR";
"2 1 3143 16646 20739 XOR";
"2 1 3140 16646 20742 XOR";
"2 1 3135 16646 20747 XOR";
"2 1 3136 16646 20746 XOR";
"2 1 3138 16646 20744 XOR";
"2 1 3137 16646 20745 XOR";
"2 1 3134 16646 20748 XOR";
"2 1 3129 16646 20753 XOR";
"2 1 3130 16646 20752 XOR";
"2 1 3132 16646 20750 XOR";
"2 1 3131 16646 20751 XOR";
"2 1 3128 16646 20754 XOR";
"2 1 3123 16646 20759 XOR";
"2 1 3124 16646 20758 XOR";
"2 1 3126 16646 20756 XOR";
"2 1 3125 16646 20757 XOR";
"2 1 3122 16646 20760 XOR";
"2 1 3117 16646 20765 XOR";
"2 1 3118 16646 20764 XOR";
"2 1 3120 16646 20762 XOR";
"2 1 3119 16646 20763 XOR";
"2 1 3116 16646 20766 XOR";
"2 1 3111 16646 20771 XOR";
"2 1 3112 16646 20770 XOR";
"2 1 3114 16646 20768 XOR";
"2 1 3113 16646 20769 XOR";
"2 1 3110 16646 20772 XOR";
"2 1 3105 16646 20777 XOR";
"2 1 3106 16646 20776 XOR";
"2 1 3108 16646 20774 XOR";
"2 1 3107 16646 20775 XOR";
"2 1 3104 16646 20778 XOR";
"2 1 3099 16646 20783 XOR";
"2 1 3100 16646 20782 XOR";
"2 1 3102 16646 20780 XOR";
"2 1 3101 16646 20781 XOR";
"2 1 3098 16646 20784 XOR";
"2 1 3094 16646 20788 XOR";
"2 1 16646 4535 17530 AND";
"2 1 7695 7694 7693 AND";
"2 1 7693 20603 20604 XOR";
"2 1 20667 20604 3213 XOR";
"2 1 16949 20604 7691 XOR";
"2 1 20731 20604 7692 XOR";
"2 1 7692 7691 7690 AND";
"2 1 7690 20604 20605 XOR";
"2 1 16950 20605 7688 XOR";
"2 1 20668 20605 3212 XOR";
"2 1 20732 20605 7689 XOR";
"2 1 7689 7688 7687 AND";
"2 1 7687 20605 20606 XOR";
"2 1 20733 20606 7686 XOR";
"2 1 20669 20606 3211 XOR";
"2 1 16951 20606 7685 XOR";
"2 1 7686 7685 7684 AND";
"2 1 7684 20606 20607 XOR";
"2 1 16952 20607 7682 XOR";
"2 1 20734 20607 7683 XOR";
"2 1 7683 7682 7681 AND";
"2 1 7681 20607 20608 XOR";
"2 1 20671 20608 3209 XOR";
"2 1 16953 20608 7679 XOR";
"2 1 20735 20608 7680 XOR";
"2 1 7680 7679 7678 AND";
"2 1 7678 20608 20609 XOR";
"2 1 20672 20609 3208 XOR";
"2 1 20736 20609 7677 XOR";
"2 1 16954 20609 7676 XOR";
"2 1 20670 20607 3210 XOR";
"2 1 7677 7676 7675 AND";
"2 1 7675 20609 20610 XOR";
"2 1 20673 20610 3207 XOR";
"2 1 16955 20610 7673 XOR";
"2 1 20737 20610 7674 XOR";
"2 1 7674 7673 7672 AND";
"2 1 7672 20610 20611 XOR";
"2 1 16956 20611 7670 XOR";
"2 1 20674 20611 3206 XOR";
"2 1 20738 20611 7671 XOR";
"2 1 7671 7670 7669 AND";
"2 1 7669 20611 20612 XOR";
"2 1 20739 20612 7668 XOR";
"2 1 20675 20612 3205 XOR";
"2 1 16957 20612 7667 XOR";
"2 1 7668 7667 7666 AND";
"2 1 7666 20612 20613 XOR";
"2 1 16958 20613 7664 XOR";
"2 1 20740 20613 7665 XOR";
"2 1 7665 7664 7663 AND";
"2 1 7663 20613 20614 XOR";
"2 1 20677 20614 3203 XOR";
"2 1 16959 20614 7661 XOR";
"2 1 20741 20614 7662 XOR";
"2 1 7662 7661 7660 AND";
"2 1 7660 20614 20615 XOR";
"2 1 20678 20615 3202 XOR";
"2 1 20742 20615 7659 XOR";
"2 1 16960 20615 7658 XOR";
"2 1 20676 20613 3204 XOR";
"2 1 7659 7658 7657 AND";
"2 1 7657 20615 20616 XOR";
"2 1 20679 20616 3201 XOR";
"2 1 16961 20616 7655 XOR";
"2 1 20743 20616 7656 XOR";
"2 1 7656 7655 7654 AND";
"2 1 7654 20616 20617 XOR";
"2 1 20680 20617 3200 XOR";
"2 1 20744 20617 7653 XOR";
"2 1 3213 16950 20479 XOR";
"2 1 3212 16951 20480 XOR";
"2 1 3211 16952 20481 XOR";
"2 1 3210 16953 20482 XOR";
"2 1 3209 16954 20483 XOR";
"2 1 3208 16955 20484 XOR";
"2 1 3207 16956 20485 XOR";
"2 1 3206 16957 20486 XOR";
"2 1 3205 16958 20487 XOR";
"2 1 3204 16959 20488 XOR";
"2 1 3203 16960 20489 XOR";
"2 1 3202 16961 20490 XOR";
"2 1 3201 16962 20491 XOR";
"2 1 3200 16963 20492 XOR";
"2 1 20913 20850 3093 XOR";
"2 1 3093 17007 20725 XOR";
"2 1 3093 16646 20789 XOR";
"2 1 16962 20617 7652 XOR";
"2 1 7653 7652 7651 AND";
"2 1 7651 20617 20618 XOR";
"2 1 20745 20618 7650 XOR";
"2 1 20681 20618 3199 XOR";
"2 1 16963 20618 7649 XOR";
"2 1 7650 7649 7648 AND";
"2 1 7648 20618 20619 XOR";
"2 1 20682 20619 3198 XOR";
"2 1 20746 20619 7647 XOR";
"2 1 3199 16964 20493 XOR";
"2 1 3198 16965 20494 XOR";
"2 1 16964 20619 7646 XOR";
"2 1 7647 7646 7645 AND";
"2 1 7645 20619 20620 XOR";
"2 1 20683 20620 3197 XOR";
"2 1 16965 20620 7643 XOR";
"2 1 20747 20620 7644 XOR";
"2 1 7644 7643 7642 AND";
"2 1 7642 20620 20621 XOR";
"2 1 20748 20621 7641 XOR";
"2 1 20684 20621 3196 XOR";
"2 1 16966 20621 7640 XOR";
"2 1 7641 7640 7639 AND";
"2 1 7639 20621 20622 XOR";
"2 1 20749 20622 7638 XOR";
"2 1 20685 20622 3195 XOR";
"2 1 3197 16966 20495 XOR";
"2 1 3196 16967 20496 XOR";
"2 1 3195 16968 20497 XOR";
"2 1 16967 20622 7637 XOR";
"2 1 7638 7637 7636 AND";
"2 1 7636 20622 20623 XOR";
"2 1 16968 20623 7634 XOR";
"2 1 20686 20623 3194 XOR";
"2 1 20750 20623 7635 XOR";
"2 1 3194 16969 20498 XOR";
"2 1 7635 7634 7633 AND";
"2 1 7633 20623 20624 XOR";
"2 1 20687 20624 3193 XOR";
"2 1 16969 20624 7631 XOR";
"2 1 20751 20624 7632 XOR";
"2 1 7632 7631 7630 AND";
"2 1 7630 20624 20625 XOR";
"2 1 20752 20625 7629 XOR";
"2 1 16970 20625 7628 XOR";
"2 1 7629 7628 7627 AND";
"2 1 7627 20625 20626 XOR";
"2 1 20689 20626 3191 XOR";
"2 1 16971 20626 7625 XOR";
"2 1 3193 16970 20499 XOR";
"2 1 3191 16972 20501 XOR";
"2 1 20688 20625 3192 XOR";
"2 1 3192 16971 20500 XOR";
"2 1 20753 20626 7626 XOR";
"2 1 7626 7625 7624 AND";
"2 1 7624 20626 20627 XOR";
"2 1 20754 20627 7623 XOR";
"2 1 16972 20627 7622 XOR";
"2 1 20690 20627 3190 XOR";
"2 1 3190 16973 20502 XOR";
"2 1 7623 7622 7621 AND";
"2 1 7621 20627 20628 XOR";
"2 1 20691 20628 3189 XOR";
"2 1 16973 20628 7619 XOR";
"2 1 20755 20628 7620 XOR";
"2 1 7620 7619 7618 AND";
"2 1 7618 20628 20629 XOR";
"2 1 16974 20629 7616 XOR";
"2 1 20692 20629 3188 XOR";
"2 1 20756 20629 7617 XOR";
"2 1 3189 16974 20503 XOR";
"2 1 3188 16975 20504 XOR";
"2 1 7617 7616 7615 AND";
"2 1 7615 20629 20630 XOR";
"2 1 20693 20630 3187 XOR";
"2 1 16975 20630 7613 XOR";
"2 1 20757 20630 7614 XOR";
"2 1 7614 7613 7612 AND";
"2 1 7612 20630 20631 XOR";
"2 1 20694 20631 3186 XOR";
"2 1 20758 20631 7611 XOR";
"2 1 16976 20631 7610 XOR";
"2 1 7611 7610 7609 AND";
"2 1 7609 20631 20632 XOR";
"2 1 20759 20632 7608 XOR";
"2 1 16977 20632 7607 XOR";
"2 1 20695 20632 3185 XOR";
"2 1 3187 16976 20505 XOR";
"2 1 3186 16977 20506 XOR";
"2 1 3185 16978 20507 XOR";
"2 1 7608 7607 7606 AND";
"2 1 7606 20632 20633 XOR";
"2 1 20760 20633 7605 XOR";
"2 1 16978 20633 7604 XOR";
"2 1 7605 7604 7603 AND";
"2 1 7603 20633 20634 XOR";
"2 1 16979 20634 7601 XOR";
"2 1 20761 20634 7602 XOR";
"2 1 20697 20634 3183 XOR";
"2 1 3183 16980 20509 XOR";
"2 1 20696 20633 3184 XOR";
"2 1 3184 16979 20508 XOR";
"2 1 7602 7601 7600 AND";
"2 1 7600 20634 20635 XOR";
"2 1 20698 20635 3182 XOR";
"2 1 20762 20635 7599 XOR";
"2 1 3182 16981 20510 XOR";
"2 1 16980 20635 7598 XOR";
"2 1 7599 7598 7597 AND";
"2 1 7597 20635 20636 XOR";
"2 1 20699 20636 3181 XOR";
"2 1 20763 20636 7596 XOR";
"2 1 16981 20636 7595 XOR";
"2 1 7596 7595 7594 AND";
"2 1 7594 20636 20637 XOR";
"2 1 20700 20637 3180 XOR";
"2 1 16982 20637 7592 XOR";
"2 1 3181 16982 20511 XOR";
"2 1 3180 16983 20512 XOR";
"2 1 20764 20637 7593 XOR";
"2 1 7593 7592 7591 AND";
"2 1 7591 20637 20638 XOR";
"2 1 20701 20638 3179 XOR";
"2 1 20765 20638 7590 XOR";
"2 1 16983 20638 7589 XOR";
"2 1 7590 7589 7588 AND";
"2 1 7588 20638 20639 XOR";
"2 1 20702 20639 3178 XOR";
"2 1 20766 20639 7587 XOR";
"2 1 16984 20639 7586 XOR";
"2 1 7587 7586 7585 AND";
"2 1 7585 20639 20640 XOR";
"2 1 20767 20640 7584 XOR";
"2 1 20703 20640 3177 XOR";
"2 1 16985 20640 7583 XOR";
"2 1 7584 7583 7582 AND";
"2 1 7582 20640 20641 XOR";
"2 1 16986 20641 7580 XOR";
"2 1 20704 20641 3176 XOR";
"2 1 3179 16984 20513 XOR";
"2 1 3178 16985 20514 XOR";
"2 1 3177 16986 20515 XOR";
"2 1 3176 16987 20516 XOR";
"2 1 20768 20641 7581 XOR";
"2 1 7581 7580 7579 AND";
"2 1 7579 20641 20642 XOR";
"2 1 16987 20642 7577 XOR";
"2 1 20769 20642 7578 XOR";
"2 1 7578 7577 7576 AND";
"2 1 7576 20642 20643 XOR";
"2 1 16988 20643 7574 XOR";
"2 1 20770 20643 7575 XOR";
"2 1 20706 20643 3174 XOR";
"2 1 20705 20642 3175 XOR";
"2 1 7575 7574 7573 AND";
"2 1 7573 20643 20644 XOR";
"2 1 20771 20644 7572 XOR";
"2 1 3175 16988 20517 XOR";
"2 1 3174 16989 20518 XOR";
"2 1 20707 20644 3173 XOR";
"2 1 3173 16990 20519 XOR";
"2 1 16989 20644 7571 XOR";
"2 1 7572 7571 7570 AND";
"2 1 7570 20644 20645 XOR";
"2 1 16990 20645 7568 XOR";
"2 1 20772 20645 7569 XOR";
"2 1 7569 7568 7567 AND";
"2 1 7567 20645 20646 XOR";
"2 1 20773 20646 7566 XOR";
"2 1 16991 20646 7565 XOR";
"2 1 7566 7565 7564 AND";
"2 1 20708 20645 3172 XOR";
"2 1 7564 20646 20647 XOR";
"2 1 20774 20647 7563 XOR";
"2 1 16992 20647 7562 XOR";
"2 1 7563 7562 7561 AND";
"2 1 20710 20647 3170 XOR";
"2 1 7561 20647 20648 XOR";
"2 1 16993 20648 7559 XOR";
"2 1 20775 20648 7560 XOR";
"2 1 7560 7559 7558 AND";
"2 1 20711 20648 3169 XOR";
"2 1 3172 16991 20520 XOR";
"2 1 3170 16993 20522 XOR";
"2 1 3169 16994 20523 XOR";
"2 1 20709 20646 3171 XOR";
"2 1 3171 16992 20521 XOR";
"2 1 7558 20648 20649 XOR";
"2 1 20776 20649 7557 XOR";
"2 1 20712 20649 3168 XOR";
"2 1 3168 16995 20524 XOR";
"2 1 16994 20649 7556 XOR";
"2 1 7557 7556 7555 AND";
"2 1 7555 20649 20650 XOR";
"2 1 16995 20650 7553 XOR";
"2 1 20713 20650 3167 XOR";
"2 1 20777 20650 7554 XOR";
"2 1 7554 7553 7552 AND";
"2 1 7552 20650 20651 XOR";
"2 1 20714 20651 3166 XOR";
"2 1 20778 20651 7551 XOR";
"2 1 16996 20651 7550 XOR";
"2 1 7551 7550 7549 AND";
"2 1 7549 20651 20652 XOR";
"2 1 20715 20652 3165 XOR";
"2 1 16997 20652 7547 XOR";
"2 1 3167 16996 20525 XOR";
"2 1 3166 16997 20526 XOR";
"2 1 3165 16998 20527 XOR";
"2 1 20779 20652 7548 XOR";
"2 1 7548 7547 7546 AND";
"2 1 7546 20652 20653 XOR";
"2 1 20716 20653 3164 XOR";
"2 1 20780 20653 7545 XOR";
"2 1 16998 20653 7544 XOR";
"2 1 7545 7544 7543 AND";
"2 1 7543 20653 20654 XOR";
"2 1 16999 20654 7541 XOR";
"2 1 20781 20654 7542 XOR";
"2 1 7542 7541 7540 AND";
"2 1 7540 20654 20655 XOR";
"2 1 20718 20655 3162 XOR";
"2 1 20782 20655 7539 XOR";
"2 1 17000 20655 7538 XOR";
"2 1 7539 7538 7537 AND";
"2 1 7537 20655 20656 XOR";
"2 1 20783 20656 7536 XOR";
"2 1 17001 20656 7535 XOR";
"2 1 7536 7535 7534 AND";
"2 1 20719 20656 3161 XOR";
"2 1 3164 16999 20528 XOR";
"2 1 3162 17001 20530 XOR";
"2 1 3161 17002 20531 XOR";
"2 1 7534 20656 20657 XOR";
"2 1 20720 20657 3160 XOR";
"2 1 20784 20657 7533 XOR";
"2 1 3160 17003 20532 XOR";
"2 1 17002 20657 7532 XOR";
"2 1 20717 20654 3163 XOR";
"2 1 3163 17000 20529 XOR";
"2 1 7533 7532 7531 AND";
"2 1 7531 20657 20658 XOR";
"2 1 17003 20658 7529 XOR";
"2 1 20721 20658 3159 XOR";
"2 1 3159 17004 20533 XOR";
"2 1 3097 16646 20785 XOR";
"2 1 20785 20658 7530 XOR";
"2 1 7530 7529 7528 AND";
"2 1 7528 20658 20659 XOR";
"2 1 20786 20659 7527 XOR";
"2 1 17004 20659 7526 XOR";
"2 1 20722 20659 3158 XOR";
"2 1 3158 17005 20534 XOR";
"2 1 7527 7526 7525 AND";
"2 1 7525 20659 20660 XOR";
"2 1 20723 20660 3157 XOR";
"2 1 20787 20660 7524 XOR";
"2 1 3157 17006 20535 XOR";
"2 1 17005 20660 7523 XOR";
"2 1 7524 7523 7522 AND";
"2 1 7522 20660 20661 XOR";
"2 1 17006 20661 7520 XOR";
"2 1 20788 20661 7521 XOR";
"2 1 20724 20661 3156 XOR";
"2 1 3156 17007 20536 XOR";
"2 1 7521 7520 7519 AND";
"2 1 7519 20661 20662 XOR";
"2 1 20725 20662 3155 XOR";
"2 1 17007 20662 7517 XOR";
"2 1 3155 17008 20537 XOR";
"2 1 20789 20662 7518 XOR";
"2 1 7518 7517 7516 AND";
"2 1 7516 20662 20663 XOR";
"2 1 20790 20663 7515 XOR";
"2 1 17008 20663 7514 XOR";
"2 1 7515 7514 7513 AND";
"2 1 20726 20663 3154 XOR";
"2 1 3154 17009 20538 XOR";
"2 1 7513 20663 20664 XOR";
"2 1 20727 20664 177 XOR";
"1 1 177 16645 INV";
"2 1 3158 16645 20598 XOR";
"2 1 3157 16645 20599 XOR";
"2 1 3214 16645 20542 XOR";
"2 1 3208 16645 20548 XOR";
"2 1 3202 16645 20554 XOR";
"2 1 3196 16645 20560 XOR";
"2 1 3190 16645 20566 XOR";
"2 1 3184 16645 20572 XOR";
"2 1 3178 16645 20578 XOR";
"2 1 3172 16645 20584 XOR";
"2 1 3166 16645 20590 XOR";
"2 1 3155 16645 20601 XOR";
"2 1 3156 16645 20600 XOR";
"2 1 3216 16645 20540 XOR";
"2 1 16834 16645 20539 XOR";
"2 1 20539 16946 20413 AND";
"2 1 20476 20413 3278 XOR";
"2 1 20540 20413 7512 XOR";
"2 1 16947 20413 7511 XOR";
"2 1 3278 16948 20288 XOR";
"2 1 7512 7511 7510 AND";
"2 1 7510 20413 20414 XOR";
"2 1 20477 20414 3277 XOR";
"2 1 16948 20414 7508 XOR";
"2 1 3277 16949 20289 XOR";
"2 1 3215 16645 20541 XOR";
"2 1 20541 20414 7509 XOR";
"2 1 7509 7508 7507 AND";
"2 1 7507 20414 20415 XOR";
"2 1 20478 20415 3276 XOR";
"2 1 20542 20415 7506 XOR";
"2 1 3276 16950 20290 XOR";
"2 1 3210 16645 20546 XOR";
"2 1 3211 16645 20545 XOR";
"2 1 3213 16645 20543 XOR";
"2 1 3212 16645 20544 XOR";
"2 1 3209 16645 20547 XOR";
"2 1 3204 16645 20552 XOR";
"2 1 3205 16645 20551 XOR";
"2 1 3207 16645 20549 XOR";
"2 1 3206 16645 20550 XOR";
"2 1 3203 16645 20553 XOR";
"2 1 3198 16645 20558 XOR";
"2 1 3199 16645 20557 XOR";
"2 1 3201 16645 20555 XOR";
"2 1 3200 16645 20556 XOR";
"2 1 3197 16645 20559 XOR";
"2 1 3192 16645 20564 XOR";
"2 1 3193 16645 20563 XOR";
"2 1 3195 16645 20561 XOR";
"2 1 3194 16645 20562 XOR";
"2 1 3191 16645 20565 XOR";
"2 1 3186 16645 20570 XOR";
"2 1 3187 16645 20569 XOR";
"2 1 3189 16645 20567 XOR";
"2 1 3188 16645 20568 XOR";
"2 1 3185 16645 20571 XOR";
"2 1 3180 16645 20576 XOR";
"2 1 3181 16645 20575 XOR";
"2 1 3183 16645 20573 XOR";
"2 1 3182 16645 20574 XOR";
"2 1 3179 16645 20577 XOR";
"2 1 3174 16645 20582 XOR";
"2 1 3175 16645 20581 XOR";
"2 1 3177 16645 20579 XOR";
"2 1 3176 16645 20580 XOR";
"2 1 3173 16645 20583 XOR";
"2 1 3168 16645 20588 XOR";
"2 1 3169 16645 20587 XOR";
"2 1 3171 16645 20585 XOR";
"2 1 3170 16645 20586 XOR";
"2 1 3167 16645 20589 XOR";
"2 1 3162 16645 20594 XOR";
"2 1 3163 16645 20593 XOR";
"2 1 3165 16645 20591 XOR";
"2 1 3164 16645 20592 XOR";
"2 1 3161 16645 20595 XOR";
"2 1 3160 16645 20596 XOR";
"2 1 16645 4535 17529 AND";
"2 1 16949 20415 7505 XOR";
"2 1 7506 7505 7504 AND";
"2 1 7504 20415 20416 XOR";
"2 1 20543 20416 7503 XOR";
"2 1 20479 20416 3275 XOR";
"2 1 16950 20416 7502 XOR";
"2 1 7503 7502 7501 AND";
"2 1 7501 20416 20417 XOR";
"2 1 16951 20417 7499 XOR";
"2 1 20544 20417 7500 XOR";
"2 1 7500 7499 7498 AND";
"2 1 7498 20417 20418 XOR";
"2 1 20481 20418 3273 XOR";
"2 1 16952 20418 7496 XOR";
"2 1 20545 20418 7497 XOR";
"2 1 7497 7496 7495 AND";
"2 1 3275 16951 20291 XOR";
"2 1 3273 16953 20293 XOR";
"2 1 7495 20418 20419 XOR";
"2 1 20482 20419 3272 XOR";
"2 1 20546 20419 7494 XOR";
"2 1 16953 20419 7493 XOR";
"2 1 7494 7493 7492 AND";
"2 1 7492 20419 20420 XOR";
"2 1 20483 20420 3271 XOR";
"2 1 16954 20420 7490 XOR";
"2 1 3272 16954 20294 XOR";
"2 1 3271 16955 20295 XOR";
"2 1 20547 20420 7491 XOR";
"2 1 7491 7490 7489 AND";
"2 1 7489 20420 20421 XOR";
"2 1 20484 20421 3270 XOR";
"2 1 20548 20421 7488 XOR";
"2 1 16955 20421 7487 XOR";
"2 1 7488 7487 7486 AND";
"2 1 7486 20421 20422 XOR";
"2 1 20549 20422 7485 XOR";
"2 1 20485 20422 3269 XOR";
"2 1 16956 20422 7484 XOR";
"2 1 7485 7484 7483 AND";
"2 1 7483 20422 20423 XOR";
"2 1 16957 20423 7481 XOR";
"2 1 20550 20423 7482 XOR";
"2 1 7482 7481 7480 AND";
"2 1 7480 20423 20424 XOR";
"2 1 20487 20424 3267 XOR";
"2 1 16958 20424 7478 XOR";
"2 1 20551 20424 7479 XOR";
"2 1 7479 7478 7477 AND";
"2 1 20486 20423 3268 XOR";
"2 1 7477 20424 20425 XOR";
"2 1 20552 20425 7476 XOR";
"2 1 16959 20425 7475 XOR";
"2 1 20488 20425 3266 XOR";
"2 1 7476 7475 7474 AND";
"2 1 7474 20425 20426 XOR";
"2 1 20489 20426 3265 XOR";
"2 1 16960 20426 7472 XOR";
"2 1 20553 20426 7473 XOR";
"2 1 7473 7472 7471 AND";
"2 1 7471 20426 20427 XOR";
"2 1 20490 20427 3264 XOR";
"2 1 20554 20427 7470 XOR";
"2 1 16961 20427 7469 XOR";
"2 1 7470 7469 7468 AND";
"2 1 7468 20427 20428 XOR";
"2 1 20491 20428 3263 XOR";
"2 1 16962 20428 7466 XOR";
"2 1 20555 20428 7467 XOR";
"2 1 7467 7466 7465 AND";
"2 1 7465 20428 20429 XOR";
"2 1 20556 20429 7464 XOR";
"2 1 16963 20429 7463 XOR";
"2 1 7464 7463 7462 AND";
"2 1 7462 20429 20430 XOR";
"2 1 16964 20430 7460 XOR";
"2 1 20557 20430 7461 XOR";
"2 1 7461 7460 7459 AND";
"2 1 20493 20430 3261 XOR";
"2 1 20492 20429 3262 XOR";
"2 1 7459 20430 20431 XOR";
"2 1 20558 20431 7458 XOR";
"2 1 16965 20431 7457 XOR";
"2 1 20494 20431 3260 XOR";
"2 1 7458 7457 7456 AND";
"2 1 7456 20431 20432 XOR";
"2 1 16966 20432 7454 XOR";
"2 1 20495 20432 3259 XOR";
"2 1 20559 20432 7455 XOR";
"2 1 7455 7454 7453 AND";
"2 1 7453 20432 20433 XOR";
"2 1 20560 20433 7452 XOR";
"2 1 20496 20433 3258 XOR";
"2 1 16967 20433 7451 XOR";
"2 1 7452 7451 7450 AND";
"2 1 7450 20433 20434 XOR";
"2 1 16968 20434 7448 XOR";
"2 1 20561 20434 7449 XOR";
"2 1 7449 7448 7447 AND";
"2 1 20497 20434 3257 XOR";
"2 1 7447 20434 20435 XOR";
"2 1 16969 20435 7445 XOR";
"2 1 20562 20435 7446 XOR";
"2 1 7446 7445 7444 AND";
"2 1 7444 20435 20436 XOR";
"2 1 16970 20436 7442 XOR";
"2 1 20563 20436 7443 XOR";
"2 1 7443 7442 7441 AND";
"2 1 20499 20436 3255 XOR";
"2 1 20498 20435 3256 XOR";
"2 1 7441 20436 20437 XOR";
"2 1 20564 20437 7440 XOR";
"2 1 16971 20437 7439 XOR";
"2 1 20500 20437 3254 XOR";
"2 1 7440 7439 7438 AND";
"2 1 7438 20437 20438 XOR";
"2 1 20501 20438 3253 XOR";
"2 1 16972 20438 7436 XOR";
"2 1 20565 20438 7437 XOR";
"2 1 7437 7436 7435 AND";
"2 1 7435 20438 20439 XOR";
"2 1 20502 20439 3252 XOR";
"2 1 20566 20439 7434 XOR";
"2 1 16973 20439 7433 XOR";
"2 1 7434 7433 7432 AND";
"2 1 7432 20439 20440 XOR";
"2 1 20567 20440 7431 XOR";
"2 1 20503 20440 3251 XOR";
"2 1 16974 20440 7430 XOR";
"2 1 7431 7430 7429 AND";
"2 1 7429 20440 20441 XOR";
"2 1 16975 20441 7427 XOR";
"2 1 20568 20441 7428 XOR";
"2 1 7428 7427 7426 AND";
"2 1 7426 20441 20442 XOR";
"2 1 16976 20442 7424 XOR";
"2 1 20569 20442 7425 XOR";
"2 1 7425 7424 7423 AND";
"2 1 20505 20442 3249 XOR";
"2 1 20504 20441 3250 XOR";
"2 1 7423 20442 20443 XOR";
"2 1 20506 20443 3248 XOR";
"2 1 20570 20443 7422 XOR";
"2 1 16977 20443 7421 XOR";
"2 1 7422 7421 7420 AND";
"2 1 7420 20443 20444 XOR";
"2 1 20507 20444 3247 XOR";
"2 1 16978 20444 7418 XOR";
"2 1 20571 20444 7419 XOR";
"2 1 7419 7418 7417 AND";
"2 1 7417 20444 20445 XOR";
"2 1 20508 20445 3246 XOR";
"2 1 20572 20445 7416 XOR";
"2 1 16979 20445 7415 XOR";
"2 1 7416 7415 7414 AND";
"2 1 7414 20445 20446 XOR";
"2 1 20509 20446 3245 XOR";
"2 1 20573 20446 7413 XOR";
"2 1 16980 20446 7412 XOR";
"2 1 7413 7412 7411 AND";
"2 1 7411 20446 20447 XOR";
"2 1 20574 20447 7410 XOR";
"2 1 16981 20447 7409 XOR";
"2 1 7410 7409 7408 AND";
"2 1 7408 20447 20448 XOR";
"2 1 16982 20448 7406 XOR";
"2 1 20511 20448 3243 XOR";
"2 1 20575 20448 7407 XOR";
"2 1 7407 7406 7405 AND";
"2 1 20510 20447 3244 XOR";
"2 1 7405 20448 20449 XOR";
"2 1 20512 20449 3242 XOR";
"2 1 20576 20449 7404 XOR";
"2 1 16983 20449 7403 XOR";
"2 1 7404 7403 7402 AND";
"2 1 7402 20449 20450 XOR";
"2 1 16984 20450 7400 XOR";
"2 1 20513 20450 3241 XOR";
"2 1 20577 20450 7401 XOR";
"2 1 7401 7400 7399 AND";
"2 1 7399 20450 20451 XOR";
"2 1 20578 20451 7398 XOR";
"2 1 20514 20451 3240 XOR";
"2 1 16985 20451 7397 XOR";
"2 1 7398 7397 7396 AND";
"2 1 7396 20451 20452 XOR";
"2 1 20579 20452 7395 XOR";
"2 1 20515 20452 3239 XOR";
"2 1 16986 20452 7394 XOR";
"2 1 7395 7394 7393 AND";
"2 1 7393 20452 20453 XOR";
"2 1 20580 20453 7392 XOR";
"2 1 16987 20453 7391 XOR";
"2 1 7392 7391 7390 AND";
"2 1 7390 20453 20454 XOR";
"2 1 16988 20454 7388 XOR";
"2 1 20517 20454 3237 XOR";
"2 1 20581 20454 7389 XOR";
"2 1 7389 7388 7387 AND";
"2 1 20516 20453 3238 XOR";
"2 1 7387 20454 20455 XOR";
"2 1 20518 20455 3236 XOR";
"2 1 20582 20455 7386 XOR";
"2 1 16989 20455 7385 XOR";
"2 1 7386 7385 7384 AND";
"2 1 7384 20455 20456 XOR";
"2 1 20519 20456 3235 XOR";
"2 1 16990 20456 7382 XOR";
"2 1 20583 20456 7383 XOR";
"2 1 7383 7382 7381 AND";
"2 1 7381 20456 20457 XOR";
"2 1 20584 20457 7380 XOR";
"2 1 20520 20457 3234 XOR";
"2 1 16991 20457 7379 XOR";
"2 1 7380 7379 7378 AND";
"2 1 7378 20457 20458 XOR";
"2 1 20585 20458 7377 XOR";
"2 1 16992 20458 7376 XOR";
"2 1 7377 7376 7375 AND";
"2 1 7375 20458 20459 XOR";
"2 1 16993 20459 7373 XOR";
"2 1 20521 20458 3233 XOR";
"2 1 20586 20459 7374 XOR";
"2 1 7374 7373 7372 AND";
"2 1 7372 20459 20460 XOR";
"2 1 16994 20460 7370 XOR";
"2 1 20587 20460 7371 XOR";
"2 1 7371 7370 7369 AND";
"2 1 20523 20460 3231 XOR";
"2 1 20522 20459 3232 XOR";
"2 1 7369 20460 20461 XOR";
"2 1 20588 20461 7368 XOR";
"2 1 20524 20461 3230 XOR";
"2 1 16995 20461 7367 XOR";
"2 1 7368 7367 7366 AND";
"2 1 7366 20461 20462 XOR";
"2 1 20525 20462 3229 XOR";
"2 1 16996 20462 7364 XOR";
"2 1 20589 20462 7365 XOR";
"2 1 7365 7364 7363 AND";
"2 1 7363 20462 20463 XOR";
"2 1 20590 20463 7362 XOR";
"2 1 20526 20463 3228 XOR";
"2 1 16997 20463 7361 XOR";
"2 1 7362 7361 7360 AND";
"2 1 7360 20463 20464 XOR";
"2 1 20591 20464 7359 XOR";
"2 1 20527 20464 3227 XOR";
"2 1 16998 20464 7358 XOR";
"2 1 7359 7358 7357 AND";
"2 1 7357 20464 20465 XOR";
"2 1 16999 20465 7355 XOR";
"2 1 20592 20465 7356 XOR";
"2 1 7356 7355 7354 AND";
"2 1 7354 20465 20466 XOR";
"2 1 20529 20466 3225 XOR";
"2 1 17000 20466 7352 XOR";
"2 1 20593 20466 7353 XOR";
"2 1 7353 7352 7351 AND";
"2 1 20528 20465 3226 XOR";
"2 1 7351 20466 20467 XOR";
"2 1 20530 20467 3224 XOR";
"2 1 20594 20467 7350 XOR";
"2 1 17001 20467 7349 XOR";
"2 1 7350 7349 7348 AND";
"2 1 7348 20467 20468 XOR";
"2 1 20531 20468 3223 XOR";
"2 1 17002 20468 7346 XOR";
"2 1 20595 20468 7347 XOR";
"2 1 7347 7346 7345 AND";
"2 1 7345 20468 20469 XOR";
"2 1 20596 20469 7344 XOR";
"2 1 20532 20469 3222 XOR";
"2 1 17003 20469 7343 XOR";
"2 1 7344 7343 7342 AND";
"2 1 7342 20469 20470 XOR";
"2 1 17004 20470 7340 XOR";
"2 1 20533 20470 3221 XOR";
"2 1 3270 16956 20296 XOR";
"2 1 3269 16957 20297 XOR";
"2 1 3268 16958 20298 XOR";
"2 1 3267 16959 20299 XOR";
"2 1 3266 16960 20300 XOR";
"2 1 3265 16961 20301 XOR";
"2 1 3264 16962 20302 XOR";
"2 1 3263 16963 20303 XOR";
"2 1 3262 16964 20304 XOR";
"2 1 3261 16965 20305 XOR";
"2 1 3260 16966 20306 XOR";
"2 1 3259 16967 20307 XOR";
"2 1 3258 16968 20308 XOR";
"2 1 3257 16969 20309 XOR";
"2 1 3256 16970 20310 XOR";
"2 1 3255 16971 20311 XOR";
"2 1 3254 16972 20312 XOR";
"2 1 3253 16973 20313 XOR";
"2 1 3252 16974 20314 XOR";
"2 1 3251 16975 20315 XOR";
"2 1 3250 16976 20316 XOR";
"2 1 3249 16977 20317 XOR";
"2 1 3248 16978 20318 XOR";
"2 1 3247 16979 20319 XOR";
"2 1 3246 16980 20320 XOR";
"2 1 3245 16981 20321 XOR";
"2 1 3244 16982 20322 XOR";
"2 1 3243 16983 20323 XOR";
"2 1 3242 16984 20324 XOR";
"2 1 3241 16985 20325 XOR";
"2 1 3240 16986 20326 XOR";
"2 1 3239 16987 20327 XOR";
"2 1 3238 16988 20328 XOR";
"2 1 3237 16989 20329 XOR";
"2 1 3236 16990 20330 XOR";
"2 1 3235 16991 20331 XOR";
"2 1 3234 16992 20332 XOR";
"2 1 3233 16993 20333 XOR";
"2 1 3232 16994 20334 XOR";
"2 1 3231 16995 20335 XOR";
"2 1 3230 16996 20336 XOR";
"2 1 3229 16997 20337 XOR";
"2 1 3228 16998 20338 XOR";
"2 1 3227 16999 20339 XOR";
"2 1 3226 17000 20340 XOR";
"2 1 3225 17001 20341 XOR";
"2 1 3224 17002 20342 XOR";
"2 1 3223 17003 20343 XOR";
"2 1 3222 17004 20344 XOR";
"2 1 3221 17005 20345 XOR";
"2 1 20480 20417 3274 XOR";
"2 1 3274 16952 20292 XOR";
"2 1 3159 16645 20597 XOR";
"2 1 20597 20470 7341 XOR";
"2 1 7341 7340 7339 AND";
"2 1 7339 20470 20471 XOR";
"2 1 20598 20471 7338 XOR";
"2 1 20534 20471 3220 XOR";
"2 1 17005 20471 7337 XOR";
"2 1 3220 17006 20346 XOR";
"2 1 7338 7337 7336 AND";
"2 1 7336 20471 20472 XOR";
"2 1 20599 20472 7335 XOR";
"2 1 17006 20472 7334 XOR";
"2 1 7335 7334 7333 AND";
"2 1 7333 20472 20473 XOR";
"2 1 20536 20473 3218 XOR";
"2 1 17007 20473 7331 XOR";
"2 1 3218 17008 20348 XOR";
"2 1 20535 20472 3219 XOR";
"2 1 3219 17007 20347 XOR";
"2 1 20600 20473 7332 XOR";
"2 1 7332 7331 7330 AND";
"2 1 7330 20473 20474 XOR";
"2 1 20601 20474 7329 XOR";
"2 1 17008 20474 7328 XOR";
"2 1 7329 7328 7327 AND";
"2 1 7327 20474 20475 XOR";
"2 1 20538 20475 178 XOR";
"1 1 178 16644 INV";
"2 1 3220 16644 20410 XOR";
"2 1 3219 16644 20411 XOR";
"2 1 3218 16644 20412 XOR";
"2 1 3276 16644 20354 XOR";
"2 1 3270 16644 20360 XOR";
"2 1 3264 16644 20366 XOR";
"2 1 3258 16644 20372 XOR";
"2 1 3252 16644 20378 XOR";
"2 1 3246 16644 20384 XOR";
"2 1 3240 16644 20390 XOR";
"2 1 3234 16644 20396 XOR";
"2 1 3228 16644 20402 XOR";
"2 1 3278 16644 20352 XOR";
"2 1 3279 16644 20351 XOR";
"2 1 16833 16644 20350 XOR";
"2 1 20350 16946 20224 AND";
"2 1 20287 20224 3341 XOR";
"2 1 20351 20224 7326 XOR";
"2 1 16947 20224 7325 XOR";
"2 1 7326 7325 7324 AND";
"2 1 7324 20224 20225 XOR";
"2 1 20352 20225 7323 XOR";
"2 1 20288 20225 3340 XOR";
"2 1 16948 20225 7322 XOR";
"2 1 7323 7322 7321 AND";
"2 1 7321 20225 20226 XOR";
"2 1 16949 20226 7319 XOR";
"2 1 20289 20226 3339 XOR";
"2 1 3341 16948 20099 XOR";
"2 1 3340 16949 20100 XOR";
"2 1 3339 16950 20101 XOR";
"2 1 3277 16644 20353 XOR";
"2 1 20353 20226 7320 XOR";
"2 1 7320 7319 7318 AND";
"2 1 7318 20226 20227 XOR";
"2 1 20354 20227 7317 XOR";
"2 1 20290 20227 3338 XOR";
"2 1 16950 20227 7316 XOR";
"2 1 7317 7316 7315 AND";
"2 1 7315 20227 20228 XOR";
"2 1 16951 20228 7313 XOR";
"2 1 20291 20228 3337 XOR";
"2 1 3338 16951 20102 XOR";
"2 1 3337 16952 20103 XOR";
"2 1 3272 16644 20358 XOR";
"2 1 3273 16644 20357 XOR";
"2 1 3275 16644 20355 XOR";
"2 1 20355 20228 7314 XOR";
"2 1 7314 7313 7312 AND";
"2 1 7312 20228 20229 XOR";
"2 1 20292 20229 3336 XOR";
"2 1 16952 20229 7310 XOR";
"2 1 3336 16953 20104 XOR";
"2 1 3274 16644 20356 XOR";
"2 1 20356 20229 7311 XOR";
"2 1 7311 7310 7309 AND";
"2 1 7309 20229 20230 XOR";
"2 1 20293 20230 3335 XOR";
"2 1 20357 20230 7308 XOR";
"2 1 16953 20230 7307 XOR";
"2 1 7308 7307 7306 AND";
"2 1 7306 20230 20231 XOR";
"2 1 20294 20231 3334 XOR";
"2 1 16954 20231 7304 XOR";
"2 1 3335 16954 20105 XOR";
"2 1 3334 16955 20106 XOR";
"2 1 3271 16644 20359 XOR";
"2 1 3266 16644 20364 XOR";
"2 1 3267 16644 20363 XOR";
"2 1 3269 16644 20361 XOR";
"2 1 3268 16644 20362 XOR";
"2 1 3265 16644 20365 XOR";
"2 1 3260 16644 20370 XOR";
"2 1 3261 16644 20369 XOR";
"2 1 3263 16644 20367 XOR";
"2 1 3262 16644 20368 XOR";
"2 1 3259 16644 20371 XOR";
"2 1 3254 16644 20376 XOR";
"2 1 3255 16644 20375 XOR";
"2 1 3257 16644 20373 XOR";
"2 1 3256 16644 20374 XOR";
"2 1 3253 16644 20377 XOR";
"2 1 3248 16644 20382 XOR";
"2 1 3249 16644 20381 XOR";
"2 1 3251 16644 20379 XOR";
"2 1 3250 16644 20380 XOR";
"2 1 3247 16644 20383 XOR";
"2 1 3242 16644 20388 XOR";
"2 1 3243 16644 20387 XOR";
"2 1 3245 16644 20385 XOR";
"2 1 3244 16644 20386 XOR";
"2 1 3241 16644 20389 XOR";
"2 1 3236 16644 20394 XOR";
"2 1 3237 16644 20393 XOR";
"2 1 3239 16644 20391 XOR";
"2 1 3238 16644 20392 XOR";
"2 1 3235 16644 20395 XOR";
"2 1 3230 16644 20400 XOR";
"2 1 3231 16644 20399 XOR";
"2 1 3233 16644 20397 XOR";
"2 1 3232 16644 20398 XOR";
"2 1 3229 16644 20401 XOR";
"2 1 3224 16644 20406 XOR";
"2 1 3225 16644 20405 XOR";
"2 1 3227 16644 20403 XOR";
"2 1 3226 16644 20404 XOR";
"2 1 3223 16644 20407 XOR";
"2 1 16644 4535 17528 AND";
"2 1 20358 20231 7305 XOR";
"2 1 7305 7304 7303 AND";
"2 1 7303 20231 20232 XOR";
"2 1 20295 20232 3333 XOR";
"2 1 20359 20232 7302 XOR";
"2 1 3333 16956 20107 XOR";
"2 1 16955 20232 7301 XOR";
"2 1 7302 7301 7300 AND";
"2 1 7300 20232 20233 XOR";
"2 1 20360 20233 7299 XOR";
"2 1 20296 20233 3332 XOR";
"2 1 16956 20233 7298 XOR";
"2 1 7299 7298 7297 AND";
"2 1 7297 20233 20234 XOR";
"2 1 16957 20234 7295 XOR";
"2 1 20361 20234 7296 XOR";
"2 1 7296 7295 7294 AND";
"2 1 7294 20234 20235 XOR";
"2 1 20298 20235 3330 XOR";
"2 1 16958 20235 7292 XOR";
"2 1 20362 20235 7293 XOR";
"2 1 7293 7292 7291 AND";
"2 1 20297 20234 3331 XOR";
"2 1 3332 16957 20108 XOR";
"2 1 3331 16958 20109 XOR";
"2 1 3330 16959 20110 XOR";
"2 1 7291 20235 20236 XOR";
"2 1 20363 20236 7290 XOR";
"2 1 16959 20236 7289 XOR";
"2 1 20299 20236 3329 XOR";
"2 1 3329 16960 20111 XOR";
"2 1 7290 7289 7288 AND";
"2 1 7288 20236 20237 XOR";
"2 1 16960 20237 7286 XOR";
"2 1 20300 20237 3328 XOR";
"2 1 3328 16961 20112 XOR";
"2 1 20364 20237 7287 XOR";
"2 1 7287 7286 7285 AND";
"2 1 7285 20237 20238 XOR";
"2 1 20365 20238 7284 XOR";
"2 1 16961 20238 7283 XOR";
"2 1 7284 7283 7282 AND";
"2 1 7282 20238 20239 XOR";
"2 1 16962 20239 7280 XOR";
"2 1 20302 20239 3326 XOR";
"2 1 3326 16963 20114 XOR";
"2 1 20301 20238 3327 XOR";
"2 1 3327 16962 20113 XOR";
"2 1 20366 20239 7281 XOR";
"2 1 7281 7280 7279 AND";
"2 1 7279 20239 20240 XOR";
"2 1 16963 20240 7277 XOR";
"2 1 20367 20240 7278 XOR";
"2 1 7278 7277 7276 AND";
"2 1 7276 20240 20241 XOR";
"2 1 20368 20241 7275 XOR";
"2 1 16964 20241 7274 XOR";
"2 1 7275 7274 7273 AND";
"2 1 20304 20241 3324 XOR";
"2 1 3324 16965 20116 XOR";
"2 1 7273 20241 20242 XOR";
"2 1 20369 20242 7272 XOR";
"2 1 16965 20242 7271 XOR";
"2 1 7272 7271 7270 AND";
"2 1 7270 20242 20243 XOR";
"2 1 20370 20243 7269 XOR";
"2 1 20306 20243 3322 XOR";
"2 1 3322 16967 20118 XOR";
"2 1 16966 20243 7268 XOR";
"2 1 7269 7268 7267 AND";
"2 1 7267 20243 20244 XOR";
"2 1 16967 20244 7265 XOR";
"2 1 20307 20244 3321 XOR";
"2 1 20371 20244 7266 XOR";
"2 1 7266 7265 7264 AND";
"2 1 7264 20244 20245 XOR";
"2 1 20372 20245 7263 XOR";
"2 1 20308 20245 3320 XOR";
"2 1 16968 20245 7262 XOR";
"2 1 3321 16968 20119 XOR";
"2 1 3320 16969 20120 XOR";
"2 1 7263 7262 7261 AND";
"2 1 7261 20245 20246 XOR";
"2 1 20309 20246 3319 XOR";
"2 1 20373 20246 7260 XOR";
"2 1 3319 16970 20121 XOR";
"2 1 16969 20246 7259 XOR";
"2 1 7260 7259 7258 AND";
"2 1 7258 20246 20247 XOR";
"2 1 20374 20247 7257 XOR";
"2 1 20310 20247 3318 XOR";
"2 1 16970 20247 7256 XOR";
"2 1 7257 7256 7255 AND";
"2 1 7255 20247 20248 XOR";
"2 1 20311 20248 3317 XOR";
"2 1 20375 20248 7254 XOR";
"2 1 3318 16971 20122 XOR";
"2 1 3317 16972 20123 XOR";
"2 1 16971 20248 7253 XOR";
"2 1 7254 7253 7252 AND";
"2 1 7252 20248 20249 XOR";
"2 1 20376 20249 7251 XOR";
"2 1 20312 20249 3316 XOR";
"2 1 16972 20249 7250 XOR";
"2 1 7251 7250 7249 AND";
"2 1 7249 20249 20250 XOR";
"2 1 20377 20250 7248 XOR";
"2 1 16973 20250 7247 XOR";
"2 1 7248 7247 7246 AND";
"2 1 7246 20250 20251 XOR";
"2 1 20314 20251 3314 XOR";
"2 1 16974 20251 7244 XOR";
"2 1 3316 16973 20124 XOR";
"2 1 3314 16975 20126 XOR";
"2 1 20313 20250 3315 XOR";
"2 1 3315 16974 20125 XOR";
"2 1 20378 20251 7245 XOR";
"2 1 7245 7244 7243 AND";
"2 1 7243 20251 20252 XOR";
"2 1 16975 20252 7241 XOR";
"2 1 20315 20252 3313 XOR";
"2 1 20379 20252 7242 XOR";
"2 1 7242 7241 7240 AND";
"2 1 7240 20252 20253 XOR";
"2 1 16976 20253 7238 XOR";
"2 1 20380 20253 7239 XOR";
"2 1 7239 7238 7237 AND";
"2 1 7237 20253 20254 XOR";
"2 1 16977 20254 7235 XOR";
"2 1 20381 20254 7236 XOR";
"2 1 7236 7235 7234 AND";
"2 1 7234 20254 20255 XOR";
"2 1 20382 20255 7233 XOR";
"2 1 16978 20255 7232 XOR";
"2 1 7233 7232 7231 AND";
"2 1 20318 20255 3310 XOR";
"2 1 7231 20255 20256 XOR";
"2 1 16979 20256 7229 XOR";
"2 1 20319 20256 3309 XOR";
"2 1 20316 20253 3312 XOR";
"2 1 20383 20256 7230 XOR";
"2 1 7230 7229 7228 AND";
"2 1 7228 20256 20257 XOR";
"2 1 16980 20257 7226 XOR";
"2 1 20320 20257 3308 XOR";
"2 1 20384 20257 7227 XOR";
"2 1 3313 16976 20127 XOR";
"2 1 3312 16977 20128 XOR";
"2 1 3310 16979 20130 XOR";
"2 1 3309 16980 20131 XOR";
"2 1 3308 16981 20132 XOR";
"2 1 20317 20254 3311 XOR";
"2 1 3311 16978 20129 XOR";
"2 1 7227 7226 7225 AND";
"2 1 7225 20257 20258 XOR";
"2 1 20385 20258 7224 XOR";
"2 1 20321 20258 3307 XOR";
"2 1 16981 20258 7223 XOR";
"2 1 7224 7223 7222 AND";
"2 1 7222 20258 20259 XOR";
"2 1 20386 20259 7221 XOR";
"2 1 16982 20259 7220 XOR";
"2 1 7221 7220 7219 AND";
"2 1 7219 20259 20260 XOR";
"2 1 20387 20260 7218 XOR";
"2 1 16983 20260 7217 XOR";
"2 1 7218 7217 7216 AND";
"2 1 7216 20260 20261 XOR";
"2 1 20388 20261 7215 XOR";
"2 1 16984 20261 7214 XOR";
"2 1 7215 7214 7213 AND";
"2 1 7213 20261 20262 XOR";
"2 1 20389 20262 7212 XOR";
"2 1 16985 20262 7211 XOR";
"2 1 7212 7211 7210 AND";
"2 1 7210 20262 20263 XOR";
"2 1 16986 20263 7208 XOR";
"2 1 20390 20263 7209 XOR";
"2 1 20324 20261 3304 XOR";
"2 1 20323 20260 3305 XOR";
"2 1 20325 20262 3303 XOR";
"2 1 20322 20259 3306 XOR";
"2 1 7209 7208 7207 AND";
"2 1 7207 20263 20264 XOR";
"2 1 16987 20264 7205 XOR";
"2 1 20327 20264 3301 XOR";
"2 1 20326 20263 3302 XOR";
"2 1 20391 20264 7206 XOR";
"2 1 7206 7205 7204 AND";
"2 1 7204 20264 20265 XOR";
"2 1 20328 20265 3300 XOR";
"2 1 16988 20265 7202 XOR";
"2 1 3307 16982 20133 XOR";
"2 1 3306 16983 20134 XOR";
"2 1 3305 16984 20135 XOR";
"2 1 3304 16985 20136 XOR";
"2 1 3303 16986 20137 XOR";
"2 1 3302 16987 20138 XOR";
"2 1 3301 16988 20139 XOR";
"2 1 3300 16989 20140 XOR";
"2 1 20392 20265 7203 XOR";
"2 1 7203 7202 7201 AND";
"2 1 7201 20265 20266 XOR";
"2 1 20393 20266 7200 XOR";
"2 1 16989 20266 7199 XOR";
"2 1 7200 7199 7198 AND";
"2 1 7198 20266 20267 XOR";
"2 1 16990 20267 7196 XOR";
"2 1 20394 20267 7197 XOR";
"2 1 7197 7196 7195 AND";
"2 1 20329 20266 3299 XOR";
"2 1 3299 16990 20141 XOR";
"2 1 7195 20267 20268 XOR";
"2 1 20331 20268 3297 XOR";
"2 1 20395 20268 7194 XOR";
"2 1 16991 20268 7193 XOR";
"2 1 7194 7193 7192 AND";
"2 1 7192 20268 20269 XOR";
"2 1 16992 20269 7190 XOR";
"2 1 20396 20269 7191 XOR";
"2 1 7191 7190 7189 AND";
"2 1 7189 20269 20270 XOR";
"2 1 16993 20270 7187 XOR";
"2 1 20333 20270 3295 XOR";
"2 1 20397 20270 7188 XOR";
"2 1 7188 7187 7186 AND";
"2 1 7186 20270 20271 XOR";
"2 1 20334 20271 3294 XOR";
"2 1 16994 20271 7184 XOR";
"2 1 20398 20271 7185 XOR";
"2 1 7185 7184 7183 AND";
"2 1 7183 20271 20272 XOR";
"2 1 20335 20272 3293 XOR";
"2 1 20332 20269 3296 XOR";
"2 1 20399 20272 7182 XOR";
"2 1 16995 20272 7181 XOR";
"2 1 7182 7181 7180 AND";
"2 1 7180 20272 20273 XOR";
"2 1 16996 20273 7178 XOR";
"2 1 20400 20273 7179 XOR";
"2 1 20336 20273 3292 XOR";
"2 1 7179 7178 7177 AND";
"2 1 7177 20273 20274 XOR";
"2 1 16997 20274 7175 XOR";
"2 1 20337 20274 3291 XOR";
"2 1 20401 20274 7176 XOR";
"2 1 7176 7175 7174 AND";
"2 1 7174 20274 20275 XOR";
"2 1 20402 20275 7173 XOR";
"2 1 20338 20275 3290 XOR";
"2 1 16998 20275 7172 XOR";
"2 1 7173 7172 7171 AND";
"2 1 7171 20275 20276 XOR";
"2 1 20339 20276 3289 XOR";
"2 1 16999 20276 7169 XOR";
"2 1 20403 20276 7170 XOR";
"2 1 7170 7169 7168 AND";
"2 1 7168 20276 20277 XOR";
"2 1 20404 20277 7167 XOR";
"2 1 20340 20277 3288 XOR";
"2 1 17000 20277 7166 XOR";
"2 1 3297 16992 20143 XOR";
"2 1 3296 16993 20144 XOR";
"2 1 3295 16994 20145 XOR";
"2 1 3294 16995 20146 XOR";
"2 1 3293 16996 20147 XOR";
"2 1 3292 16997 20148 XOR";
"2 1 3291 16998 20149 XOR";
"2 1 3290 16999 20150 XOR";
"2 1 3289 17000 20151 XOR";
"2 1 3288 17001 20152 XOR";
"2 1 7167 7166 7165 AND";
"2 1 7165 20277 20278 XOR";
"2 1 17001 20278 7163 XOR";
"2 1 20405 20278 7164 XOR";
"2 1 20341 20278 3287 XOR";
"2 1 7164 7163 7162 AND";
"2 1 7162 20278 20279 XOR";
"2 1 20342 20279 3286 XOR";
"2 1 17002 20279 7160 XOR";
"2 1 20406 20279 7161 XOR";
"2 1 7161 7160 7159 AND";
"2 1 7159 20279 20280 XOR";
"2 1 20343 20280 3285 XOR";
"2 1 17003 20280 7157 XOR";
"2 1 3287 17002 20153 XOR";
"2 1 3286 17003 20154 XOR";
"2 1 3285 17004 20155 XOR";
"2 1 20407 20280 7158 XOR";
"2 1 7158 7157 7156 AND";
"2 1 7156 20280 20281 XOR";
"2 1 17004 20281 7154 XOR";
"2 1 20344 20281 3284 XOR";
"2 1 3284 17005 20156 XOR";
"2 1 20330 20267 3298 XOR";
"2 1 3298 16991 20142 XOR";
"2 1 20305 20242 3323 XOR";
"2 1 3323 16966 20117 XOR";
"2 1 20303 20240 3325 XOR";
"2 1 3325 16964 20115 XOR";
"2 1 3221 16644 20409 XOR";
"2 1 20537 20474 3217 XOR";
"2 1 3217 17009 20349 XOR";
"2 1 3222 16644 20408 XOR";
"2 1 20408 20281 7155 XOR";
"2 1 7155 7154 7153 AND";
"2 1 7153 20281 20282 XOR";
"2 1 20409 20282 7152 XOR";
"2 1 17005 20282 7151 XOR";
"2 1 7152 7151 7150 AND";
"2 1 7150 20282 20283 XOR";
"2 1 20410 20283 7149 XOR";
"2 1 20346 20283 3282 XOR";
"2 1 17006 20283 7148 XOR";
"2 1 7149 7148 7147 AND";
"2 1 7147 20283 20284 XOR";
"2 1 20347 20284 3281 XOR";
"2 1 17007 20284 7145 XOR";
"2 1 20411 20284 7146 XOR";
"2 1 7146 7145 7144 AND";
"2 1 7144 20284 20285 XOR";
"2 1 20412 20285 7143 XOR";
"2 1 17008 20285 7142 XOR";
"2 1 7143 7142 7141 AND";
"2 1 3281 17008 20159 XOR";
"2 1 20345 20282 3283 XOR";
"2 1 3283 17006 20157 XOR";
"2 1 20348 20285 3280 XOR";
"2 1 3280 17009 20160 XOR";
"2 1 3282 17007 20158 XOR";
"2 1 7141 20285 20286 XOR";
"2 1 20349 20286 179 XOR";
"1 1 179 16643 INV";
"2 1 3283 16643 20221 XOR";
"2 1 3282 16643 20222 XOR";
"2 1 3281 16643 20223 XOR";
"2 1 3339 16643 20165 XOR";
"2 1 3333 16643 20171 XOR";
"2 1 3327 16643 20177 XOR";
"2 1 3321 16643 20183 XOR";
"2 1 3315 16643 20189 XOR";
"2 1 3309 16643 20195 XOR";
"2 1 3303 16643 20201 XOR";
"2 1 3297 16643 20207 XOR";
"2 1 3291 16643 20213 XOR";
"2 1 3341 16643 20163 XOR";
"2 1 3342 16643 20162 XOR";
"2 1 16832 16643 20161 XOR";
"2 1 20161 16946 20035 AND";
"2 1 20098 20035 3404 XOR";
"2 1 16947 20035 7139 XOR";
"2 1 20162 20035 7140 XOR";
"2 1 7140 7139 7138 AND";
"2 1 7138 20035 20036 XOR";
"2 1 20099 20036 3403 XOR";
"2 1 20163 20036 7137 XOR";
"2 1 16948 20036 7136 XOR";
"2 1 7137 7136 7135 AND";
"2 1 7135 20036 20037 XOR";
"2 1 20100 20037 3402 XOR";
"2 1 16949 20037 7133 XOR";
"2 1 3404 16948 19910 XOR";
"2 1 3403 16949 19911 XOR";
"2 1 3402 16950 19912 XOR";
"2 1 3340 16643 20164 XOR";
"2 1 20164 20037 7134 XOR";
"2 1 7134 7133 7132 AND";
"2 1 7132 20037 20038 XOR";
"2 1 16950 20038 7130 XOR";
"2 1 20165 20038 7131 XOR";
"2 1 7131 7130 7129 AND";
"2 1 7129 20038 20039 XOR";
"2 1 20102 20039 3400 XOR";
"2 1 16951 20039 7127 XOR";
"2 1 20101 20038 3401 XOR";
"2 1 3401 16951 19913 XOR";
"2 1 3400 16952 19914 XOR";
"2 1 3335 16643 20169 XOR";
"2 1 3336 16643 20168 XOR";
"2 1 3338 16643 20166 XOR";
"2 1 20166 20039 7128 XOR";
"2 1 7128 7127 7126 AND";
"2 1 7126 20039 20040 XOR";
"2 1 20103 20040 3399 XOR";
"2 1 16952 20040 7124 XOR";
"2 1 3399 16953 19915 XOR";
"2 1 3337 16643 20167 XOR";
"2 1 20167 20040 7125 XOR";
"2 1 7125 7124 7123 AND";
"2 1 7123 20040 20041 XOR";
"2 1 20104 20041 3398 XOR";
"2 1 16953 20041 7121 XOR";
"2 1 20168 20041 7122 XOR";
"2 1 7122 7121 7120 AND";
"2 1 7120 20041 20042 XOR";
"2 1 20105 20042 3397 XOR";
"2 1 20169 20042 7119 XOR";
"2 1 16954 20042 7118 XOR";
"2 1 7119 7118 7117 AND";
"2 1 7117 20042 20043 XOR";
"2 1 20106 20043 3396 XOR";
"2 1 16955 20043 7115 XOR";
"2 1 3398 16954 19916 XOR";
"2 1 3397 16955 19917 XOR";
"2 1 3396 16956 19918 XOR";
"2 1 3334 16643 20170 XOR";
"2 1 20170 20043 7116 XOR";
"2 1 7116 7115 7114 AND";
"2 1 7114 20043 20044 XOR";
"2 1 16956 20044 7112 XOR";
"2 1 20171 20044 7113 XOR";
"2 1 7113 7112 7111 AND";
"2 1 7111 20044 20045 XOR";
"2 1 20108 20045 3394 XOR";
"2 1 16957 20045 7109 XOR";
"2 1 20107 20044 3395 XOR";
"2 1 3395 16957 19919 XOR";
"2 1 3394 16958 19920 XOR";
"2 1 3329 16643 20175 XOR";
"2 1 3330 16643 20174 XOR";
"2 1 3332 16643 20172 XOR";
"2 1 20172 20045 7110 XOR";
"2 1 7110 7109 7108 AND";
"2 1 7108 20045 20046 XOR";
"2 1 20109 20046 3393 XOR";
"2 1 16958 20046 7106 XOR";
"2 1 3393 16959 19921 XOR";
"2 1 3331 16643 20173 XOR";
"2 1 20173 20046 7107 XOR";
"2 1 7107 7106 7105 AND";
"2 1 7105 20046 20047 XOR";
"2 1 20110 20047 3392 XOR";
"2 1 16959 20047 7103 XOR";
"2 1 3392 16960 19922 XOR";
"2 1 3328 16643 20176 XOR";
"2 1 3323 16643 20181 XOR";
"2 1 3324 16643 20180 XOR";
"2 1 3326 16643 20178 XOR";
"2 1 3325 16643 20179 XOR";
"2 1 3322 16643 20182 XOR";
"2 1 3317 16643 20187 XOR";
"2 1 3318 16643 20186 XOR";
"2 1 3320 16643 20184 XOR";
"2 1 3319 16643 20185 XOR";
"2 1 3316 16643 20188 XOR";
"2 1 3311 16643 20193 XOR";
"2 1 3312 16643 20192 XOR";
"2 1 3314 16643 20190 XOR";
"2 1 3313 16643 20191 XOR";
"2 1 3310 16643 20194 XOR";
"2 1 3305 16643 20199 XOR";
"2 1 3306 16643 20198 XOR";
"2 1 3308 16643 20196 XOR";
"2 1 3307 16643 20197 XOR";
"2 1 3304 16643 20200 XOR";
"2 1 3299 16643 20205 XOR";
"2 1 3300 16643 20204 XOR";
"2 1 3302 16643 20202 XOR";
"2 1 3301 16643 20203 XOR";
"2 1 3298 16643 20206 XOR";
"2 1 3293 16643 20211 XOR";
"2 1 3294 16643 20210 XOR";
"2 1 3296 16643 20208 XOR";
"2 1 3295 16643 20209 XOR";
"2 1 3292 16643 20212 XOR";
"2 1 3287 16643 20217 XOR";
"2 1 3288 16643 20216 XOR";
"2 1 3290 16643 20214 XOR";
"2 1 3289 16643 20215 XOR";
"2 1 3286 16643 20218 XOR";
"2 1 16643 4535 17527 AND";
"2 1 3285 16643 20219 XOR";
"2 1 20174 20047 7104 XOR";
"2 1 7104 7103 7102 AND";
"2 1 7102 20047 20048 XOR";
"2 1 16960 20048 7100 XOR";
"2 1 20111 20048 3391 XOR";
"2 1 3391 16961 19923 XOR";
"2 1 20175 20048 7101 XOR";
"2 1 7101 7100 7099 AND";
"2 1 7099 20048 20049 XOR";
"2 1 20112 20049 3390 XOR";
"2 1 3390 16962 19924 XOR";
"2 1 16961 20049 7097 XOR";
"2 1 20176 20049 7098 XOR";
"2 1 7098 7097 7096 AND";
"2 1 7096 20049 20050 XOR";
"2 1 20113 20050 3389 XOR";
"2 1 16962 20050 7094 XOR";
"2 1 3389 16963 19925 XOR";
"2 1 20177 20050 7095 XOR";
"2 1 7095 7094 7093 AND";
"2 1 7093 20050 20051 XOR";
"2 1 20114 20051 3388 XOR";
"2 1 3388 16964 19926 XOR";
"2 1 20178 20051 7092 XOR";
"2 1 16963 20051 7091 XOR";
"2 1 7092 7091 7090 AND";
"2 1 7090 20051 20052 XOR";
"2 1 20115 20052 3387 XOR";
"2 1 20179 20052 7089 XOR";
"2 1 3387 16965 19927 XOR";
"2 1 16964 20052 7088 XOR";
"2 1 7089 7088 7087 AND";
"2 1 7087 20052 20053 XOR";
"2 1 20180 20053 7086 XOR";
"2 1 20116 20053 3386 XOR";
"2 1 16965 20053 7085 XOR";
"2 1 3386 16966 19928 XOR";
"2 1 7086 7085 7084 AND";
"2 1 7084 20053 20054 XOR";
"2 1 16966 20054 7082 XOR";
"2 1 20117 20054 3385 XOR";
"2 1 3385 16967 19929 XOR";
"2 1 20181 20054 7083 XOR";
"2 1 7083 7082 7081 AND";
"2 1 7081 20054 20055 XOR";
"2 1 20118 20055 3384 XOR";
"2 1 16967 20055 7079 XOR";
"2 1 3384 16968 19930 XOR";
"2 1 20182 20055 7080 XOR";
"2 1 7080 7079 7078 AND";
"2 1 7078 20055 20056 XOR";
"2 1 20183 20056 7077 XOR";
"2 1 20119 20056 3383 XOR";
"2 1 3383 16969 19931 XOR";
"2 1 16968 20056 7076 XOR";
"2 1 7077 7076 7075 AND";
"2 1 7075 20056 20057 XOR";
"2 1 20184 20057 7074 XOR";
"2 1 20120 20057 3382 XOR";
"2 1 16969 20057 7073 XOR";
"2 1 3382 16970 19932 XOR";
"2 1 7074 7073 7072 AND";
"2 1 7072 20057 20058 XOR";
"2 1 20121 20058 3381 XOR";
"2 1 3381 16971 19933 XOR";
"2 1 16970 20058 7070 XOR";
"2 1 20185 20058 7071 XOR";
"2 1 7071 7070 7069 AND";
"2 1 7069 20058 20059 XOR";
"2 1 20186 20059 7068 XOR";
"2 1 20122 20059 3380 XOR";
"2 1 16971 20059 7067 XOR";
"2 1 3380 16972 19934 XOR";
"2 1 7068 7067 7066 AND";
"2 1 7066 20059 20060 XOR";
"2 1 20187 20060 7065 XOR";
"2 1 16972 20060 7064 XOR";
"2 1 7065 7064 7063 AND";
"2 1 7063 20060 20061 XOR";
"2 1 20124 20061 3378 XOR";
"2 1 20188 20061 7062 XOR";
"2 1 3378 16974 19936 XOR";
"2 1 16973 20061 7061 XOR";
"2 1 7062 7061 7060 AND";
"2 1 7060 20061 20062 XOR";
"2 1 16974 20062 7058 XOR";
"2 1 20189 20062 7059 XOR";
"2 1 20125 20062 3377 XOR";
"2 1 7059 7058 7057 AND";
"2 1 7057 20062 20063 XOR";
"2 1 20190 20063 7056 XOR";
"2 1 20126 20063 3376 XOR";
"2 1 3377 16975 19937 XOR";
"2 1 3376 16976 19938 XOR";
"2 1 16975 20063 7055 XOR";
"2 1 7056 7055 7054 AND";
"2 1 7054 20063 20064 XOR";
"2 1 16976 20064 7052 XOR";
"2 1 20191 20064 7053 XOR";
"2 1 20127 20064 3375 XOR";
"2 1 3375 16977 19939 XOR";
"2 1 7053 7052 7051 AND";
"2 1 7051 20064 20065 XOR";
"2 1 20192 20065 7050 XOR";
"2 1 16977 20065 7049 XOR";
"2 1 7050 7049 7048 AND";
"2 1 7048 20065 20066 XOR";
"2 1 16978 20066 7046 XOR";
"2 1 20129 20066 3373 XOR";
"2 1 3373 16979 19941 XOR";
"2 1 20193 20066 7047 XOR";
"2 1 7047 7046 7045 AND";
"2 1 7045 20066 20067 XOR";
"2 1 20194 20067 7044 XOR";
"2 1 16979 20067 7043 XOR";
"2 1 7044 7043 7042 AND";
"2 1 20130 20067 3372 XOR";
"2 1 7042 20067 20068 XOR";
"2 1 20131 20068 3371 XOR";
"2 1 16980 20068 7040 XOR";
"2 1 20195 20068 7041 XOR";
"2 1 7041 7040 7039 AND";
"2 1 3372 16980 19942 XOR";
"2 1 3371 16981 19943 XOR";
"2 1 20128 20065 3374 XOR";
"2 1 3374 16978 19940 XOR";
"2 1 7039 20068 20069 XOR";
"2 1 16981 20069 7037 XOR";
"2 1 20196 20069 7038 XOR";
"2 1 7038 7037 7036 AND";
"2 1 7036 20069 20070 XOR";
"2 1 20133 20070 3369 XOR";
"2 1 20132 20069 3370 XOR";
"2 1 20197 20070 7035 XOR";
"2 1 16982 20070 7034 XOR";
"2 1 7035 7034 7033 AND";
"2 1 7033 20070 20071 XOR";
"2 1 16983 20071 7031 XOR";
"2 1 20198 20071 7032 XOR";
"2 1 20134 20071 3368 XOR";
"2 1 3370 16982 19944 XOR";
"2 1 3369 16983 19945 XOR";
"2 1 3368 16984 19946 XOR";
"2 1 7032 7031 7030 AND";
"2 1 7030 20071 20072 XOR";
"2 1 20135 20072 3367 XOR";
"2 1 16984 20072 7028 XOR";
"2 1 20199 20072 7029 XOR";
"2 1 7029 7028 7027 AND";
"2 1 3367 16985 19947 XOR";
"2 1 7027 20072 20073 XOR";
"2 1 20136 20073 3366 XOR";
"2 1 16985 20073 7025 XOR";
"2 1 20200 20073 7026 XOR";
"2 1 3366 16986 19948 XOR";
"2 1 7026 7025 7024 AND";
"2 1 7024 20073 20074 XOR";
"2 1 16986 20074 7022 XOR";
"2 1 20201 20074 7023 XOR";
"2 1 7023 7022 7021 AND";
"2 1 7021 20074 20075 XOR";
"2 1 20202 20075 7020 XOR";
"2 1 16987 20075 7019 XOR";
"2 1 7020 7019 7018 AND";
"2 1 7018 20075 20076 XOR";
"2 1 16988 20076 7016 XOR";
"2 1 20203 20076 7017 XOR";
"2 1 7017 7016 7015 AND";
"2 1 7015 20076 20077 XOR";
"2 1 20140 20077 3362 XOR";
"2 1 20138 20075 3364 XOR";
"2 1 16989 20077 7013 XOR";
"2 1 3364 16988 19950 XOR";
"2 1 3362 16990 19952 XOR";
"2 1 20139 20076 3363 XOR";
"2 1 3363 16989 19951 XOR";
"2 1 20137 20074 3365 XOR";
"2 1 3365 16987 19949 XOR";
"2 1 20204 20077 7014 XOR";
"2 1 7014 7013 7012 AND";
"2 1 7012 20077 20078 XOR";
"2 1 20141 20078 3361 XOR";
"2 1 3361 16991 19953 XOR";
"2 1 20205 20078 7011 XOR";
"2 1 16990 20078 7010 XOR";
"2 1 7011 7010 7009 AND";
"2 1 7009 20078 20079 XOR";
"2 1 20142 20079 3360 XOR";
"2 1 16991 20079 7007 XOR";
"2 1 20206 20079 7008 XOR";
"2 1 3360 16992 19954 XOR";
"2 1 7008 7007 7006 AND";
"2 1 7006 20079 20080 XOR";
"2 1 20143 20080 3359 XOR";
"2 1 20207 20080 7005 XOR";
"2 1 16992 20080 7004 XOR";
"2 1 7005 7004 7003 AND";
"2 1 7003 20080 20081 XOR";
"2 1 16993 20081 7001 XOR";
"2 1 20208 20081 7002 XOR";
"2 1 7002 7001 7000 AND";
"2 1 7000 20081 20082 XOR";
"2 1 20145 20082 3357 XOR";
"2 1 20144 20081 3358 XOR";
"2 1 20209 20082 6999 XOR";
"2 1 3359 16993 19955 XOR";
"2 1 3358 16994 19956 XOR";
"2 1 3357 16995 19957 XOR";
"2 1 16994 20082 6998 XOR";
"2 1 6999 6998 6997 AND";
"2 1 6997 20082 20083 XOR";
"2 1 20210 20083 6996 XOR";
"2 1 16995 20083 6995 XOR";
"2 1 6996 6995 6994 AND";
"2 1 6994 20083 20084 XOR";
"2 1 16996 20084 6992 XOR";
"2 1 20147 20084 3355 XOR";
"2 1 20146 20083 3356 XOR";
"2 1 20211 20084 6993 XOR";
"2 1 6993 6992 6991 AND";
"2 1 6991 20084 20085 XOR";
"2 1 20148 20085 3354 XOR";
"2 1 16997 20085 6989 XOR";
"2 1 3356 16996 19958 XOR";
"2 1 3355 16997 19959 XOR";
"2 1 3354 16998 19960 XOR";
"2 1 20212 20085 6990 XOR";
"2 1 6990 6989 6988 AND";
"2 1 6988 20085 20086 XOR";
"2 1 20149 20086 3353 XOR";
"2 1 20213 20086 6987 XOR";
"2 1 3353 16999 19961 XOR";
"2 1 16998 20086 6986 XOR";
"2 1 6987 6986 6985 AND";
"2 1 6985 20086 20087 XOR";
"2 1 16999 20087 6983 XOR";
"2 1 20214 20087 6984 XOR";
"2 1 6984 6983 6982 AND";
"2 1 20150 20087 3352 XOR";
"2 1 3352 17000 19962 XOR";
"2 1 6982 20087 20088 XOR";
"2 1 17000 20088 6980 XOR";
"2 1 20151 20088 3351 XOR";
"2 1 3351 17001 19963 XOR";
"2 1 20215 20088 6981 XOR";
"2 1 6981 6980 6979 AND";
"2 1 6979 20088 20089 XOR";
"2 1 20152 20089 3350 XOR";
"2 1 17001 20089 6977 XOR";
"2 1 3350 17002 19964 XOR";
"2 1 20216 20089 6978 XOR";
"2 1 6978 6977 6976 AND";
"2 1 6976 20089 20090 XOR";
"2 1 20153 20090 3349 XOR";
"2 1 3349 17003 19965 XOR";
"2 1 20217 20090 6975 XOR";
"2 1 17002 20090 6974 XOR";
"2 1 6975 6974 6973 AND";
"2 1 6973 20090 20091 XOR";
"2 1 17003 20091 6971 XOR";
"2 1 20154 20091 3348 XOR";
"2 1 20218 20091 6972 XOR";
"2 1 3348 17004 19966 XOR";
"2 1 6972 6971 6970 AND";
"2 1 6970 20091 20092 XOR";
"2 1 20219 20092 6969 XOR";
"2 1 20155 20092 3347 XOR";
"2 1 3347 17005 19967 XOR";
"2 1 17004 20092 6968 XOR";
"2 1 6969 6968 6967 AND";
"2 1 6967 20092 20093 XOR";
"2 1 17005 20093 6965 XOR";
"2 1 20156 20093 3346 XOR";
"2 1 3346 17006 19968 XOR";
"2 1 20123 20060 3379 XOR";
"2 1 3379 16973 19935 XOR";
"2 1 3284 16643 20220 XOR";
"2 1 20220 20093 6966 XOR";
"2 1 6966 6965 6964 AND";
"2 1 6964 20093 20094 XOR";
"2 1 20157 20094 3345 XOR";
"2 1 17006 20094 6962 XOR";
"2 1 3345 17007 19969 XOR";
"2 1 20221 20094 6963 XOR";
"2 1 6963 6962 6961 AND";
"2 1 6961 20094 20095 XOR";
"2 1 20158 20095 3344 XOR";
"2 1 3344 17008 19970 XOR";
"2 1 20222 20095 6960 XOR";
"2 1 17007 20095 6959 XOR";
"2 1 6960 6959 6958 AND";
"2 1 6958 20095 20096 XOR";
"2 1 20159 20096 3343 XOR";
"2 1 3343 17009 19971 XOR";
"2 1 20223 20096 6957 XOR";
"2 1 17008 20096 6956 XOR";
"2 1 6957 6956 6955 AND";
"2 1 6955 20096 20097 XOR";
"2 1 20160 20097 180 XOR";
"1 1 180 16642 INV";
"2 1 3344 16642 20034 XOR";
"2 1 3401 16642 19977 XOR";
"2 1 3395 16642 19983 XOR";
"2 1 3389 16642 19989 XOR";
"2 1 3383 16642 19995 XOR";
"2 1 3377 16642 20001 XOR";
"2 1 3371 16642 20007 XOR";
"2 1 3365 16642 20013 XOR";
"2 1 3359 16642 20019 XOR";
"2 1 3353 16642 20025 XOR";
"2 1 3403 16642 19975 XOR";
"2 1 3404 16642 19974 XOR";
"2 1 16831 16642 19972 XOR";
"2 1 19972 16946 19846 AND";
"2 1 19909 19846 3467 XOR";
"2 1 16947 19846 6953 XOR";
"2 1 3467 16948 19721 XOR";
"2 1 3405 16642 19973 XOR";
"2 1 19973 19846 6954 XOR";
"2 1 6954 6953 6952 AND";
"2 1 6952 19846 19847 XOR";
"2 1 16948 19847 6950 XOR";
"2 1 19910 19847 3466 XOR";
"2 1 19974 19847 6951 XOR";
"2 1 6951 6950 6949 AND";
"2 1 6949 19847 19848 XOR";
"2 1 19975 19848 6948 XOR";
"2 1 19911 19848 3465 XOR";
"2 1 16949 19848 6947 XOR";
"2 1 6948 6947 6946 AND";
"2 1 6946 19848 19849 XOR";
"2 1 16950 19849 6944 XOR";
"2 1 3466 16949 19722 XOR";
"2 1 3465 16950 19723 XOR";
"2 1 3402 16642 19976 XOR";
"2 1 19976 19849 6945 XOR";
"2 1 6945 6944 6943 AND";
"2 1 6943 19849 19850 XOR";
"2 1 19913 19850 3463 XOR";
"2 1 16951 19850 6941 XOR";
"2 1 19977 19850 6942 XOR";
"2 1 6942 6941 6940 AND";
"2 1 6940 19850 19851 XOR";
"2 1 19914 19851 3462 XOR";
"2 1 16952 19851 6938 XOR";
"2 1 3463 16952 19725 XOR";
"2 1 3462 16953 19726 XOR";
"2 1 3397 16642 19981 XOR";
"2 1 3398 16642 19980 XOR";
"2 1 3400 16642 19978 XOR";
"2 1 19978 19851 6939 XOR";
"2 1 6939 6938 6937 AND";
"2 1 6937 19851 19852 XOR";
"2 1 19915 19852 3461 XOR";
"2 1 16953 19852 6935 XOR";
"2 1 3461 16954 19727 XOR";
"2 1 3399 16642 19979 XOR";
"2 1 19979 19852 6936 XOR";
"2 1 6936 6935 6934 AND";
"2 1 6934 19852 19853 XOR";
"2 1 19916 19853 3460 XOR";
"2 1 19980 19853 6933 XOR";
"2 1 3460 16955 19728 XOR";
"2 1 3396 16642 19982 XOR";
"2 1 3391 16642 19987 XOR";
"2 1 3392 16642 19986 XOR";
"2 1 3394 16642 19984 XOR";
"2 1 3393 16642 19985 XOR";
"2 1 3390 16642 19988 XOR";
"2 1 3385 16642 19993 XOR";
"2 1 3386 16642 19992 XOR";
"2 1 3388 16642 19990 XOR";
"2 1 3387 16642 19991 XOR";
"2 1 3384 16642 19994 XOR";
"2 1 3379 16642 19999 XOR";
"2 1 3380 16642 19998 XOR";
"2 1 3382 16642 19996 XOR";
"2 1 3381 16642 19997 XOR";
"2 1 3378 16642 20000 XOR";
"2 1 3373 16642 20005 XOR";
"2 1 3374 16642 20004 XOR";
"2 1 3376 16642 20002 XOR";
"2 1 3375 16642 20003 XOR";
"2 1 3372 16642 20006 XOR";
"2 1 3367 16642 20011 XOR";
"2 1 3368 16642 20010 XOR";
"2 1 3370 16642 20008 XOR";
"2 1 3369 16642 20009 XOR";
"2 1 3366 16642 20012 XOR";
"2 1 3361 16642 20017 XOR";
"2 1 3362 16642 20016 XOR";
"2 1 3364 16642 20014 XOR";
"2 1 3363 16642 20015 XOR";
"2 1 3360 16642 20018 XOR";
"2 1 3355 16642 20023 XOR";
"2 1 3356 16642 20022 XOR";
"2 1 3358 16642 20020 XOR";
"2 1 3357 16642 20021 XOR";
"2 1 3354 16642 20024 XOR";
"2 1 3349 16642 20029 XOR";
"2 1 3350 16642 20028 XOR";
"2 1 3352 16642 20026 XOR";
"2 1 3351 16642 20027 XOR";
"2 1 3348 16642 20030 XOR";
"2 1 16954 19853 6932 XOR";
"2 1 6933 6932 6931 AND";
"2 1 6931 19853 19854 XOR";
"2 1 19981 19854 6930 XOR";
"2 1 19917 19854 3459 XOR";
"2 1 16955 19854 6929 XOR";
"2 1 6930 6929 6928 AND";
"2 1 6928 19854 19855 XOR";
"2 1 16956 19855 6926 XOR";
"2 1 19982 19855 6927 XOR";
"2 1 6927 6926 6925 AND";
"2 1 6925 19855 19856 XOR";
"2 1 19919 19856 3457 XOR";
"2 1 16957 19856 6923 XOR";
"2 1 19983 19856 6924 XOR";
"2 1 6924 6923 6922 AND";
"2 1 6922 19856 19857 XOR";
"2 1 19920 19857 3456 XOR";
"2 1 19984 19857 6921 XOR";
"2 1 16958 19857 6920 XOR";
"2 1 6921 6920 6919 AND";
"2 1 6919 19857 19858 XOR";
"2 1 19921 19858 3455 XOR";
"2 1 16959 19858 6917 XOR";
"2 1 19918 19855 3458 XOR";
"2 1 3459 16956 19729 XOR";
"2 1 3458 16957 19730 XOR";
"2 1 3457 16958 19731 XOR";
"2 1 3456 16959 19732 XOR";
"2 1 3455 16960 19733 XOR";
"2 1 19985 19858 6918 XOR";
"2 1 6918 6917 6916 AND";
"2 1 6916 19858 19859 XOR";
"2 1 19922 19859 3454 XOR";
"2 1 19986 19859 6915 XOR";
"2 1 3454 16961 19734 XOR";
"2 1 16642 4535 17526 AND";
"2 1 16960 19859 6914 XOR";
"2 1 6915 6914 6913 AND";
"2 1 6913 19859 19860 XOR";
"2 1 16961 19860 6911 XOR";
"2 1 19987 19860 6912 XOR";
"2 1 6912 6911 6910 AND";
"2 1 6910 19860 19861 XOR";
"2 1 16962 19861 6908 XOR";
"2 1 19988 19861 6909 XOR";
"2 1 6909 6908 6907 AND";
"2 1 19924 19861 3452 XOR";
"2 1 3452 16963 19736 XOR";
"2 1 6907 19861 19862 XOR";
"2 1 19925 19862 3451 XOR";
"2 1 19989 19862 6906 XOR";
"2 1 3451 16964 19737 XOR";
"2 1 16963 19862 6905 XOR";
"2 1 6906 6905 6904 AND";
"2 1 6904 19862 19863 XOR";
"2 1 19926 19863 3450 XOR";
"2 1 19990 19863 6903 XOR";
"2 1 3450 16965 19738 XOR";
"2 1 16964 19863 6902 XOR";
"2 1 6903 6902 6901 AND";
"2 1 6901 19863 19864 XOR";
"2 1 19991 19864 6900 XOR";
"2 1 19927 19864 3449 XOR";
"2 1 16965 19864 6899 XOR";
"2 1 3449 16966 19739 XOR";
"2 1 6900 6899 6898 AND";
"2 1 6898 19864 19865 XOR";
"2 1 16966 19865 6896 XOR";
"2 1 19928 19865 3448 XOR";
"2 1 3448 16967 19740 XOR";
"2 1 19992 19865 6897 XOR";
"2 1 6897 6896 6895 AND";
"2 1 6895 19865 19866 XOR";
"2 1 19993 19866 6894 XOR";
"2 1 19929 19866 3447 XOR";
"2 1 16967 19866 6893 XOR";
"2 1 3447 16968 19741 XOR";
"2 1 6894 6893 6892 AND";
"2 1 6892 19866 19867 XOR";
"2 1 19930 19867 3446 XOR";
"2 1 16968 19867 6890 XOR";
"2 1 3446 16969 19742 XOR";
"2 1 19994 19867 6891 XOR";
"2 1 6891 6890 6889 AND";
"2 1 6889 19867 19868 XOR";
"2 1 19995 19868 6888 XOR";
"2 1 19931 19868 3445 XOR";
"2 1 3445 16970 19743 XOR";
"2 1 16969 19868 6887 XOR";
"2 1 6888 6887 6886 AND";
"2 1 6886 19868 19869 XOR";
"2 1 19932 19869 3444 XOR";
"2 1 19996 19869 6885 XOR";
"2 1 3444 16971 19744 XOR";
"2 1 16970 19869 6884 XOR";
"2 1 6885 6884 6883 AND";
"2 1 6883 19869 19870 XOR";
"2 1 19997 19870 6882 XOR";
"2 1 19933 19870 3443 XOR";
"2 1 16971 19870 6881 XOR";
"2 1 6882 6881 6880 AND";
"2 1 6880 19870 19871 XOR";
"2 1 19998 19871 6879 XOR";
"2 1 3443 16972 19745 XOR";
"2 1 16972 19871 6878 XOR";
"2 1 6879 6878 6877 AND";
"2 1 6877 19871 19872 XOR";
"2 1 19999 19872 6876 XOR";
"2 1 19935 19872 3441 XOR";
"2 1 3441 16974 19747 XOR";
"2 1 16973 19872 6875 XOR";
"2 1 6876 6875 6874 AND";
"2 1 6874 19872 19873 XOR";
"2 1 20000 19873 6873 XOR";
"2 1 19936 19873 3440 XOR";
"2 1 3440 16975 19748 XOR";
"2 1 19934 19871 3442 XOR";
"2 1 3442 16973 19746 XOR";
"2 1 16974 19873 6872 XOR";
"2 1 6873 6872 6871 AND";
"2 1 6871 19873 19874 XOR";
"2 1 20001 19874 6870 XOR";
"2 1 16975 19874 6869 XOR";
"2 1 6870 6869 6868 AND";
"2 1 6868 19874 19875 XOR";
"2 1 16976 19875 6866 XOR";
"2 1 20002 19875 6867 XOR";
"2 1 6867 6866 6865 AND";
"2 1 6865 19875 19876 XOR";
"2 1 19939 19876 3437 XOR";
"2 1 16977 19876 6863 XOR";
"2 1 19937 19874 3439 XOR";
"2 1 3439 16976 19749 XOR";
"2 1 3437 16978 19751 XOR";
"2 1 20003 19876 6864 XOR";
"2 1 6864 6863 6862 AND";
"2 1 6862 19876 19877 XOR";
"2 1 19940 19877 3436 XOR";
"2 1 20004 19877 6861 XOR";
"2 1 3436 16979 19752 XOR";
"2 1 19938 19875 3438 XOR";
"2 1 3438 16977 19750 XOR";
"2 1 19923 19860 3453 XOR";
"2 1 3453 16962 19735 XOR";
"2 1 16978 19877 6860 XOR";
"2 1 6861 6860 6859 AND";
"2 1 6859 19877 19878 XOR";
"2 1 16979 19878 6857 XOR";
"2 1 19941 19878 3435 XOR";
"2 1 20005 19878 6858 XOR";
"2 1 3435 16980 19753 XOR";
"2 1 6858 6857 6856 AND";
"2 1 6856 19878 19879 XOR";
"2 1 19942 19879 3434 XOR";
"2 1 16980 19879 6854 XOR";
"2 1 20006 19879 6855 XOR";
"2 1 6855 6854 6853 AND";
"2 1 3434 16981 19754 XOR";
"2 1 6853 19879 19880 XOR";
"2 1 20007 19880 6852 XOR";
"2 1 16981 19880 6851 XOR";
"2 1 6852 6851 6850 AND";
"2 1 6850 19880 19881 XOR";
"2 1 20008 19881 6849 XOR";
"2 1 16982 19881 6848 XOR";
"2 1 6849 6848 6847 AND";
"2 1 6847 19881 19882 XOR";
"2 1 20009 19882 6846 XOR";
"2 1 19945 19882 3431 XOR";
"2 1 19944 19881 3432 XOR";
"2 1 16983 19882 6845 XOR";
"2 1 6846 6845 6844 AND";
"2 1 6844 19882 19883 XOR";
"2 1 16984 19883 6842 XOR";
"2 1 19946 19883 3430 XOR";
"2 1 20010 19883 6843 XOR";
"2 1 6843 6842 6841 AND";
"2 1 6841 19883 19884 XOR";
"2 1 16985 19884 6839 XOR";
"2 1 19947 19884 3429 XOR";
"2 1 3432 16983 19756 XOR";
"2 1 3431 16984 19757 XOR";
"2 1 3430 16985 19758 XOR";
"2 1 3429 16986 19759 XOR";
"2 1 20011 19884 6840 XOR";
"2 1 6840 6839 6838 AND";
"2 1 6838 19884 19885 XOR";
"2 1 16986 19885 6836 XOR";
"2 1 19948 19885 3428 XOR";
"2 1 3428 16987 19760 XOR";
"2 1 20012 19885 6837 XOR";
"2 1 19943 19880 3433 XOR";
"2 1 3433 16982 19755 XOR";
"2 1 6837 6836 6835 AND";
"2 1 6835 19885 19886 XOR";
"2 1 20013 19886 6834 XOR";
"2 1 19949 19886 3427 XOR";
"2 1 3427 16988 19761 XOR";
"2 1 16987 19886 6833 XOR";
"2 1 6834 6833 6832 AND";
"2 1 6832 19886 19887 XOR";
"2 1 16988 19887 6830 XOR";
"2 1 20014 19887 6831 XOR";
"2 1 6831 6830 6829 AND";
"2 1 6829 19887 19888 XOR";
"2 1 16989 19888 6827 XOR";
"2 1 19951 19888 3425 XOR";
"2 1 3425 16990 19763 XOR";
"2 1 20015 19888 6828 XOR";
"2 1 6828 6827 6826 AND";
"2 1 6826 19888 19889 XOR";
"2 1 16990 19889 6824 XOR";
"2 1 19952 19889 3424 XOR";
"2 1 3424 16991 19764 XOR";
"2 1 20016 19889 6825 XOR";
"2 1 6825 6824 6823 AND";
"2 1 6823 19889 19890 XOR";
"2 1 16991 19890 6821 XOR";
"2 1 19953 19890 3423 XOR";
"2 1 20017 19890 6822 XOR";
"2 1 6822 6821 6820 AND";
"2 1 6820 19890 19891 XOR";
"2 1 20018 19891 6819 XOR";
"2 1 19954 19891 3422 XOR";
"2 1 16992 19891 6818 XOR";
"2 1 6819 6818 6817 AND";
"2 1 6817 19891 19892 XOR";
"2 1 19955 19892 3421 XOR";
"2 1 20019 19892 6816 XOR";
"2 1 16993 19892 6815 XOR";
"2 1 6816 6815 6814 AND";
"2 1 3423 16992 19765 XOR";
"2 1 3422 16993 19766 XOR";
"2 1 3421 16994 19767 XOR";
"2 1 19950 19887 3426 XOR";
"2 1 3426 16989 19762 XOR";
"2 1 3345 16642 20033 XOR";
"2 1 3346 16642 20032 XOR";
"2 1 19912 19849 3464 XOR";
"2 1 3464 16951 19724 XOR";
"2 1 6814 19892 19893 XOR";
"2 1 20020 19893 6813 XOR";
"2 1 16994 19893 6812 XOR";
"2 1 6813 6812 6811 AND";
"2 1 6811 19893 19894 XOR";
"2 1 20021 19894 6810 XOR";
"2 1 19956 19893 3420 XOR";
"2 1 19957 19894 3419 XOR";
"2 1 16995 19894 6809 XOR";
"2 1 6810 6809 6808 AND";
"2 1 6808 19894 19895 XOR";
"2 1 16996 19895 6806 XOR";
"2 1 19958 19895 3418 XOR";
"2 1 20022 19895 6807 XOR";
"2 1 6807 6806 6805 AND";
"2 1 6805 19895 19896 XOR";
"2 1 19959 19896 3417 XOR";
"2 1 3420 16995 19768 XOR";
"2 1 3419 16996 19769 XOR";
"2 1 3418 16997 19770 XOR";
"2 1 3417 16998 19771 XOR";
"2 1 16997 19896 6803 XOR";
"2 1 20023 19896 6804 XOR";
"2 1 6804 6803 6802 AND";
"2 1 6802 19896 19897 XOR";
"2 1 19960 19897 3416 XOR";
"2 1 16998 19897 6800 XOR";
"2 1 3416 16999 19772 XOR";
"2 1 20024 19897 6801 XOR";
"2 1 6801 6800 6799 AND";
"2 1 6799 19897 19898 XOR";
"2 1 16999 19898 6797 XOR";
"2 1 20025 19898 6798 XOR";
"2 1 6798 6797 6796 AND";
"2 1 6796 19898 19899 XOR";
"2 1 20026 19899 6795 XOR";
"2 1 19962 19899 3414 XOR";
"2 1 3414 17001 19774 XOR";
"2 1 17000 19899 6794 XOR";
"2 1 6795 6794 6793 AND";
"2 1 6793 19899 19900 XOR";
"2 1 19963 19900 3413 XOR";
"2 1 17001 19900 6791 XOR";
"2 1 20027 19900 6792 XOR";
"2 1 6792 6791 6790 AND";
"2 1 6790 19900 19901 XOR";
"2 1 19964 19901 3412 XOR";
"2 1 17002 19901 6788 XOR";
"2 1 3413 17002 19775 XOR";
"2 1 3412 17003 19776 XOR";
"2 1 20028 19901 6789 XOR";
"2 1 6789 6788 6787 AND";
"2 1 6787 19901 19902 XOR";
"2 1 19965 19902 3411 XOR";
"2 1 20029 19902 6786 XOR";
"2 1 17003 19902 6785 XOR";
"2 1 6786 6785 6784 AND";
"2 1 6784 19902 19903 XOR";
"2 1 20030 19903 6783 XOR";
"2 1 3411 17004 19777 XOR";
"2 1 19966 19903 3410 XOR";
"2 1 3410 17005 19778 XOR";
"2 1 17004 19903 6782 XOR";
"2 1 6783 6782 6781 AND";
"2 1 6781 19903 19904 XOR";
"2 1 17005 19904 6779 XOR";
"2 1 19967 19904 3409 XOR";
"2 1 3409 17006 19779 XOR";
"2 1 19961 19898 3415 XOR";
"2 1 3415 17000 19773 XOR";
"2 1 3347 16642 20031 XOR";
"2 1 20031 19904 6780 XOR";
"2 1 6780 6779 6778 AND";
"2 1 6778 19904 19905 XOR";
"2 1 19968 19905 3408 XOR";
"2 1 3408 17007 19780 XOR";
"2 1 17006 19905 6776 XOR";
"2 1 20032 19905 6777 XOR";
"2 1 6777 6776 6775 AND";
"2 1 6775 19905 19906 XOR";
"2 1 17007 19906 6773 XOR";
"2 1 20033 19906 6774 XOR";
"2 1 6774 6773 6772 AND";
"2 1 6772 19906 19907 XOR";
"2 1 19970 19907 3406 XOR";
"2 1 20034 19907 6771 XOR";
"2 1 17008 19907 6770 XOR";
"2 1 3406 17009 19782 XOR";
"2 1 19969 19906 3407 XOR";
"2 1 3407 17008 19781 XOR";
"2 1 6771 6770 6769 AND";
"2 1 6769 19907 19908 XOR";
"2 1 19971 19908 181 XOR";
"1 1 181 16641 INV";
"2 1 3407 16641 19845 XOR";
"2 1 3464 16641 19788 XOR";
"2 1 3458 16641 19794 XOR";
"2 1 3452 16641 19800 XOR";
"2 1 3446 16641 19806 XOR";
"2 1 3440 16641 19812 XOR";
"2 1 3434 16641 19818 XOR";
"2 1 3428 16641 19824 XOR";
"2 1 3422 16641 19830 XOR";
"2 1 3416 16641 19836 XOR";
"2 1 3466 16641 19786 XOR";
"2 1 3467 16641 19785 XOR";
"2 1 16830 16641 19783 XOR";
"2 1 3468 16641 19784 XOR";
"2 1 3465 16641 19787 XOR";
"2 1 3460 16641 19792 XOR";
"2 1 3461 16641 19791 XOR";
"2 1 3463 16641 19789 XOR";
"2 1 3462 16641 19790 XOR";
"2 1 3459 16641 19793 XOR";
"2 1 3454 16641 19798 XOR";
"2 1 3455 16641 19797 XOR";
"2 1 3457 16641 19795 XOR";
"2 1 3456 16641 19796 XOR";
"2 1 3453 16641 19799 XOR";
"2 1 3448 16641 19804 XOR";
"2 1 3449 16641 19803 XOR";
"2 1 3451 16641 19801 XOR";
"2 1 3450 16641 19802 XOR";
"2 1 3447 16641 19805 XOR";
"2 1 3442 16641 19810 XOR";
"2 1 3443 16641 19809 XOR";
"2 1 3445 16641 19807 XOR";
"2 1 3444 16641 19808 XOR";
"2 1 3441 16641 19811 XOR";
"2 1 3436 16641 19816 XOR";
"2 1 3437 16641 19815 XOR";
"2 1 3439 16641 19813 XOR";
"2 1 3438 16641 19814 XOR";
"2 1 3435 16641 19817 XOR";
"2 1 3430 16641 19822 XOR";
"2 1 3431 16641 19821 XOR";
"2 1 3433 16641 19819 XOR";
"2 1 3432 16641 19820 XOR";
"2 1 3429 16641 19823 XOR";
"2 1 3424 16641 19828 XOR";
"2 1 3425 16641 19827 XOR";
"2 1 3427 16641 19825 XOR";
"2 1 3426 16641 19826 XOR";
"2 1 3423 16641 19829 XOR";
"2 1 3418 16641 19834 XOR";
"2 1 3419 16641 19833 XOR";
"2 1 3421 16641 19831 XOR";
"2 1 3420 16641 19832 XOR";
"2 1 3417 16641 19835 XOR";
"2 1 3412 16641 19840 XOR";
"2 1 3413 16641 19839 XOR";
"2 1 3415 16641 19837 XOR";
"2 1 3414 16641 19838 XOR";
"2 1 3411 16641 19841 XOR";
"2 1 3410 16641 19842 XOR";
"2 1 16641 4535 17525 AND";
"2 1 19783 16946 19657 AND";
"2 1 19720 19657 3530 XOR";
"2 1 19784 19657 6768 XOR";
"2 1 16947 19657 6767 XOR";
"2 1 6768 6767 6766 AND";
"2 1 6766 19657 19658 XOR";
"2 1 19785 19658 6765 XOR";
"2 1 19721 19658 3529 XOR";
"2 1 16948 19658 6764 XOR";
"2 1 6765 6764 6763 AND";
"2 1 6763 19658 19659 XOR";
"2 1 19722 19659 3528 XOR";
"2 1 16949 19659 6761 XOR";
"2 1 19786 19659 6762 XOR";
"2 1 6762 6761 6760 AND";
"2 1 6760 19659 19660 XOR";
"2 1 19723 19660 3527 XOR";
"2 1 16950 19660 6758 XOR";
"2 1 19787 19660 6759 XOR";
"2 1 6759 6758 6757 AND";
"2 1 6757 19660 19661 XOR";
"2 1 19724 19661 3526 XOR";
"2 1 19788 19661 6756 XOR";
"2 1 16951 19661 6755 XOR";
"2 1 6756 6755 6754 AND";
"2 1 6754 19661 19662 XOR";
"2 1 19725 19662 3525 XOR";
"2 1 16952 19662 6752 XOR";
"2 1 19789 19662 6753 XOR";
"2 1 6753 6752 6751 AND";
"2 1 6751 19662 19663 XOR";
"2 1 19726 19663 3524 XOR";
"2 1 19790 19663 6750 XOR";
"2 1 16953 19663 6749 XOR";
"2 1 6750 6749 6748 AND";
"2 1 6748 19663 19664 XOR";
"2 1 19791 19664 6747 XOR";
"2 1 19727 19664 3523 XOR";
"2 1 16954 19664 6746 XOR";
"2 1 6747 6746 6745 AND";
"2 1 6745 19664 19665 XOR";
"2 1 16955 19665 6743 XOR";
"2 1 19792 19665 6744 XOR";
"2 1 6744 6743 6742 AND";
"2 1 6742 19665 19666 XOR";
"2 1 19729 19666 3521 XOR";
"2 1 16956 19666 6740 XOR";
"2 1 19793 19666 6741 XOR";
"2 1 6741 6740 6739 AND";
"2 1 6739 19666 19667 XOR";
"2 1 19730 19667 3520 XOR";
"2 1 19794 19667 6738 XOR";
"2 1 16957 19667 6737 XOR";
"2 1 6738 6737 6736 AND";
"2 1 6736 19667 19668 XOR";
"2 1 19731 19668 3519 XOR";
"2 1 16958 19668 6734 XOR";
"2 1 19728 19665 3522 XOR";
"2 1 19795 19668 6735 XOR";
"2 1 6735 6734 6733 AND";
"2 1 6733 19668 19669 XOR";
"2 1 19732 19669 3518 XOR";
"2 1 19796 19669 6732 XOR";
"2 1 16959 19669 6731 XOR";
"2 1 6732 6731 6730 AND";
"2 1 6730 19669 19670 XOR";
"2 1 19797 19670 6729 XOR";
"2 1 19733 19670 3517 XOR";
"2 1 16960 19670 6728 XOR";
"2 1 6729 6728 6727 AND";
"2 1 6727 19670 19671 XOR";
"2 1 16961 19671 6725 XOR";
"2 1 19798 19671 6726 XOR";
"2 1 6726 6725 6724 AND";
"2 1 6724 19671 19672 XOR";
"2 1 19735 19672 3515 XOR";
"2 1 16962 19672 6722 XOR";
"2 1 19799 19672 6723 XOR";
"2 1 6723 6722 6721 AND";
"2 1 6721 19672 19673 XOR";
"2 1 19736 19673 3514 XOR";
"2 1 19800 19673 6720 XOR";
"2 1 16963 19673 6719 XOR";
"2 1 6720 6719 6718 AND";
"2 1 6718 19673 19674 XOR";
"2 1 19737 19674 3513 XOR";
"2 1 16964 19674 6716 XOR";
"2 1 19734 19671 3516 XOR";
"2 1 19801 19674 6717 XOR";
"2 1 6717 6716 6715 AND";
"2 1 6715 19674 19675 XOR";
"2 1 19738 19675 3512 XOR";
"2 1 19802 19675 6714 XOR";
"2 1 3530 16948 19532 XOR";
"2 1 3529 16949 19533 XOR";
"2 1 3528 16950 19534 XOR";
"2 1 3527 16951 19535 XOR";
"2 1 3526 16952 19536 XOR";
"2 1 3525 16953 19537 XOR";
"2 1 3524 16954 19538 XOR";
"2 1 3523 16955 19539 XOR";
"2 1 3522 16956 19540 XOR";
"2 1 3521 16957 19541 XOR";
"2 1 3520 16958 19542 XOR";
"2 1 3519 16959 19543 XOR";
"2 1 3518 16960 19544 XOR";
"2 1 3517 16961 19545 XOR";
"2 1 3516 16962 19546 XOR";
"2 1 3515 16963 19547 XOR";
"2 1 3514 16964 19548 XOR";
"2 1 3513 16965 19549 XOR";
"2 1 3512 16966 19550 XOR";
"2 1 16965 19675 6713 XOR";
"2 1 6714 6713 6712 AND";
"2 1 6712 19675 19676 XOR";
"2 1 19803 19676 6711 XOR";
"2 1 19739 19676 3511 XOR";
"2 1 16966 19676 6710 XOR";
"2 1 6711 6710 6709 AND";
"2 1 6709 19676 19677 XOR";
"2 1 19740 19677 3510 XOR";
"2 1 16967 19677 6707 XOR";
"2 1 19804 19677 6708 XOR";
"2 1 6708 6707 6706 AND";
"2 1 6706 19677 19678 XOR";
"2 1 19741 19678 3509 XOR";
"2 1 16968 19678 6704 XOR";
"2 1 19805 19678 6705 XOR";
"2 1 6705 6704 6703 AND";
"2 1 6703 19678 19679 XOR";
"2 1 19806 19679 6702 XOR";
"2 1 16969 19679 6701 XOR";
"2 1 6702 6701 6700 AND";
"2 1 19742 19679 3508 XOR";
"2 1 6700 19679 19680 XOR";
"2 1 19807 19680 6699 XOR";
"2 1 19743 19680 3507 XOR";
"2 1 16970 19680 6698 XOR";
"2 1 6699 6698 6697 AND";
"2 1 3511 16967 19551 XOR";
"2 1 3510 16968 19552 XOR";
"2 1 3509 16969 19553 XOR";
"2 1 3508 16970 19554 XOR";
"2 1 3507 16971 19555 XOR";
"2 1 6697 19680 19681 XOR";
"2 1 19744 19681 3506 XOR";
"2 1 16971 19681 6695 XOR";
"2 1 19808 19681 6696 XOR";
"2 1 6696 6695 6694 AND";
"2 1 6694 19681 19682 XOR";
"2 1 19809 19682 6693 XOR";
"2 1 19745 19682 3505 XOR";
"2 1 16972 19682 6692 XOR";
"2 1 6693 6692 6691 AND";
"2 1 6691 19682 19683 XOR";
"2 1 19746 19683 3504 XOR";
"2 1 19810 19683 6690 XOR";
"2 1 16973 19683 6689 XOR";
"2 1 6690 6689 6688 AND";
"2 1 6688 19683 19684 XOR";
"2 1 19811 19684 6687 XOR";
"2 1 19747 19684 3503 XOR";
"2 1 16974 19684 6686 XOR";
"2 1 6687 6686 6685 AND";
"2 1 6685 19684 19685 XOR";
"2 1 19748 19685 3502 XOR";
"2 1 19812 19685 6684 XOR";
"2 1 16975 19685 6683 XOR";
"2 1 6684 6683 6682 AND";
"2 1 6682 19685 19686 XOR";
"2 1 19813 19686 6681 XOR";
"2 1 19749 19686 3501 XOR";
"2 1 3506 16972 19556 XOR";
"2 1 3505 16973 19557 XOR";
"2 1 3504 16974 19558 XOR";
"2 1 3503 16975 19559 XOR";
"2 1 3502 16976 19560 XOR";
"2 1 3501 16977 19561 XOR";
"2 1 16976 19686 6680 XOR";
"2 1 6681 6680 6679 AND";
"2 1 6679 19686 19687 XOR";
"2 1 19750 19687 3500 XOR";
"2 1 19814 19687 6678 XOR";
"2 1 3500 16978 19562 XOR";
"2 1 16977 19687 6677 XOR";
"2 1 6678 6677 6676 AND";
"2 1 6676 19687 19688 XOR";
"2 1 19751 19688 3499 XOR";
"2 1 19815 19688 6675 XOR";
"2 1 16978 19688 6674 XOR";
"2 1 6675 6674 6673 AND";
"2 1 6673 19688 19689 XOR";
"2 1 19752 19689 3498 XOR";
"2 1 19816 19689 6672 XOR";
"2 1 16979 19689 6671 XOR";
"2 1 6672 6671 6670 AND";
"2 1 6670 19689 19690 XOR";
"2 1 19817 19690 6669 XOR";
"2 1 16980 19690 6668 XOR";
"2 1 6669 6668 6667 AND";
"2 1 19753 19690 3497 XOR";
"2 1 3499 16979 19563 XOR";
"2 1 3498 16980 19564 XOR";
"2 1 3497 16981 19565 XOR";
"2 1 6667 19690 19691 XOR";
"2 1 16981 19691 6665 XOR";
"2 1 19818 19691 6666 XOR";
"2 1 19754 19691 3496 XOR";
"2 1 3496 16982 19566 XOR";
"2 1 6666 6665 6664 AND";
"2 1 6664 19691 19692 XOR";
"2 1 19819 19692 6663 XOR";
"2 1 16982 19692 6662 XOR";
"2 1 19755 19692 3495 XOR";
"2 1 6663 6662 6661 AND";
"2 1 6661 19692 19693 XOR";
"2 1 16983 19693 6659 XOR";
"2 1 19756 19693 3494 XOR";
"2 1 19820 19693 6660 XOR";
"2 1 6660 6659 6658 AND";
"2 1 6658 19693 19694 XOR";
"2 1 19821 19694 6657 XOR";
"2 1 19757 19694 3493 XOR";
"2 1 16984 19694 6656 XOR";
"2 1 6657 6656 6655 AND";
"2 1 6655 19694 19695 XOR";
"2 1 19758 19695 3492 XOR";
"2 1 16985 19695 6653 XOR";
"2 1 3495 16983 19567 XOR";
"2 1 3494 16984 19568 XOR";
"2 1 3493 16985 19569 XOR";
"2 1 3492 16986 19570 XOR";
"2 1 19822 19695 6654 XOR";
"2 1 6654 6653 6652 AND";
"2 1 6652 19695 19696 XOR";
"2 1 19759 19696 3491 XOR";
"2 1 19823 19696 6651 XOR";
"2 1 16986 19696 6650 XOR";
"2 1 3491 16987 19571 XOR";
"2 1 6651 6650 6649 AND";
"2 1 6649 19696 19697 XOR";
"2 1 19760 19697 3490 XOR";
"2 1 16987 19697 6647 XOR";
"2 1 19824 19697 6648 XOR";
"2 1 6648 6647 6646 AND";
"2 1 6646 19697 19698 XOR";
"2 1 19825 19698 6645 XOR";
"2 1 19761 19698 3489 XOR";
"2 1 16988 19698 6644 XOR";
"2 1 6645 6644 6643 AND";
"2 1 6643 19698 19699 XOR";
"2 1 19762 19699 3488 XOR";
"2 1 16989 19699 6641 XOR";
"2 1 19826 19699 6642 XOR";
"2 1 6642 6641 6640 AND";
"2 1 6640 19699 19700 XOR";
"2 1 19763 19700 3487 XOR";
"2 1 19827 19700 6639 XOR";
"2 1 16990 19700 6638 XOR";
"2 1 6639 6638 6637 AND";
"2 1 6637 19700 19701 XOR";
"2 1 16991 19701 6635 XOR";
"2 1 19828 19701 6636 XOR";
"2 1 6636 6635 6634 AND";
"2 1 3490 16988 19572 XOR";
"2 1 3489 16989 19573 XOR";
"2 1 3488 16990 19574 XOR";
"2 1 3487 16991 19575 XOR";
"2 1 6634 19701 19702 XOR";
"2 1 19765 19702 3485 XOR";
"2 1 19829 19702 6633 XOR";
"2 1 16992 19702 6632 XOR";
"2 1 3485 16993 19577 XOR";
"2 1 19764 19701 3486 XOR";
"2 1 3486 16992 19576 XOR";
"2 1 6633 6632 6631 AND";
"2 1 6631 19702 19703 XOR";
"2 1 16993 19703 6629 XOR";
"2 1 19766 19703 3484 XOR";
"2 1 19830 19703 6630 XOR";
"2 1 3484 16994 19578 XOR";
"2 1 6630 6629 6628 AND";
"2 1 6628 19703 19704 XOR";
"2 1 19831 19704 6627 XOR";
"2 1 19767 19704 3483 XOR";
"2 1 16994 19704 6626 XOR";
"2 1 6627 6626 6625 AND";
"2 1 6625 19704 19705 XOR";
"2 1 16995 19705 6623 XOR";
"2 1 19768 19705 3482 XOR";
"2 1 19832 19705 6624 XOR";
"2 1 6624 6623 6622 AND";
"2 1 6622 19705 19706 XOR";
"2 1 16996 19706 6620 XOR";
"2 1 19769 19706 3481 XOR";
"2 1 19833 19706 6621 XOR";
"2 1 6621 6620 6619 AND";
"2 1 6619 19706 19707 XOR";
"2 1 19770 19707 3480 XOR";
"2 1 16997 19707 6617 XOR";
"2 1 19834 19707 6618 XOR";
"2 1 6618 6617 6616 AND";
"2 1 6616 19707 19708 XOR";
"2 1 19835 19708 6615 XOR";
"2 1 16998 19708 6614 XOR";
"2 1 6615 6614 6613 AND";
"2 1 19771 19708 3479 XOR";
"2 1 3483 16995 19579 XOR";
"2 1 3482 16996 19580 XOR";
"2 1 3481 16997 19581 XOR";
"2 1 3480 16998 19582 XOR";
"2 1 3479 16999 19583 XOR";
"2 1 6613 19708 19709 XOR";
"2 1 16999 19709 6611 XOR";
"2 1 19772 19709 3478 XOR";
"2 1 3478 17000 19584 XOR";
"2 1 19836 19709 6612 XOR";
"2 1 6612 6611 6610 AND";
"2 1 6610 19709 19710 XOR";
"2 1 19837 19710 6609 XOR";
"2 1 19773 19710 3477 XOR";
"2 1 17000 19710 6608 XOR";
"2 1 6609 6608 6607 AND";
"2 1 6607 19710 19711 XOR";
"2 1 19774 19711 3476 XOR";
"2 1 19838 19711 6606 XOR";
"2 1 3477 17001 19585 XOR";
"2 1 3476 17002 19586 XOR";
"2 1 17001 19711 6605 XOR";
"2 1 6606 6605 6604 AND";
"2 1 6604 19711 19712 XOR";
"2 1 19839 19712 6603 XOR";
"2 1 19775 19712 3475 XOR";
"2 1 17002 19712 6602 XOR";
"2 1 6603 6602 6601 AND";
"2 1 6601 19712 19713 XOR";
"2 1 19840 19713 6600 XOR";
"2 1 19776 19713 3474 XOR";
"2 1 17003 19713 6599 XOR";
"2 1 6600 6599 6598 AND";
"2 1 6598 19713 19714 XOR";
"2 1 19841 19714 6597 XOR";
"2 1 17004 19714 6596 XOR";
"2 1 6597 6596 6595 AND";
"2 1 6595 19714 19715 XOR";
"2 1 19778 19715 3472 XOR";
"2 1 19842 19715 6594 XOR";
"2 1 17005 19715 6593 XOR";
"2 1 6594 6593 6592 AND";
"2 1 6592 19715 19716 XOR";
"2 1 19779 19716 3471 XOR";
"2 1 17006 19716 6590 XOR";
"2 1 3475 17003 19587 XOR";
"2 1 3474 17004 19588 XOR";
"2 1 3472 17006 19590 XOR";
"2 1 3471 17007 19591 XOR";
"2 1 19777 19714 3473 XOR";
"2 1 3473 17005 19589 XOR";
"2 1 3408 16641 19844 XOR";
"2 1 3409 16641 19843 XOR";
"2 1 19843 19716 6591 XOR";
"2 1 6591 6590 6589 AND";
"2 1 6589 19716 19717 XOR";
"2 1 19844 19717 6588 XOR";
"2 1 19780 19717 3470 XOR";
"2 1 3470 17008 19592 XOR";
"2 1 17007 19717 6587 XOR";
"2 1 6588 6587 6586 AND";
"2 1 6586 19717 19718 XOR";
"2 1 19781 19718 3469 XOR";
"2 1 19845 19718 6585 XOR";
"2 1 3469 17009 19593 XOR";
"2 1 17008 19718 6584 XOR";
"2 1 6585 6584 6583 AND";
"2 1 6583 19718 19719 XOR";
"2 1 19782 19719 182 XOR";
"1 1 182 16640 INV";
"2 1 3471 16640 19655 XOR";
"2 1 16829 16640 19594 XOR";
"2 1 3526 16640 19600 XOR";
"2 1 3520 16640 19606 XOR";
"2 1 3514 16640 19612 XOR";
"2 1 3508 16640 19618 XOR";
"2 1 3502 16640 19624 XOR";
"2 1 3496 16640 19630 XOR";
"2 1 3490 16640 19636 XOR";
"2 1 3484 16640 19642 XOR";
"2 1 3478 16640 19648 XOR";
"2 1 19594 16946 19468 AND";
"2 1 19531 19468 3593 XOR";
"2 1 16947 19468 6581 XOR";
"2 1 3593 16948 19343 XOR";
"2 1 3528 16640 19598 XOR";
"2 1 3529 16640 19597 XOR";
"2 1 3531 16640 19595 XOR";
"2 1 19595 19468 6582 XOR";
"2 1 6582 6581 6580 AND";
"2 1 6580 19468 19469 XOR";
"2 1 19532 19469 3592 XOR";
"2 1 16948 19469 6578 XOR";
"2 1 3592 16949 19344 XOR";
"2 1 3530 16640 19596 XOR";
"2 1 19596 19469 6579 XOR";
"2 1 6579 6578 6577 AND";
"2 1 6577 19469 19470 XOR";
"2 1 16949 19470 6575 XOR";
"2 1 19597 19470 6576 XOR";
"2 1 6576 6575 6574 AND";
"2 1 6574 19470 19471 XOR";
"2 1 19534 19471 3590 XOR";
"2 1 16950 19471 6572 XOR";
"2 1 19598 19471 6573 XOR";
"2 1 6573 6572 6571 AND";
"2 1 19533 19470 3591 XOR";
"2 1 6571 19471 19472 XOR";
"2 1 19535 19472 3589 XOR";
"2 1 16951 19472 6569 XOR";
"2 1 3591 16950 19345 XOR";
"2 1 3590 16951 19346 XOR";
"2 1 3589 16952 19347 XOR";
"2 1 3527 16640 19599 XOR";
"2 1 19599 19472 6570 XOR";
"2 1 6570 6569 6568 AND";
"2 1 6568 19472 19473 XOR";
"2 1 19536 19473 3588 XOR";
"2 1 16952 19473 6566 XOR";
"2 1 19600 19473 6567 XOR";
"2 1 6567 6566 6565 AND";
"2 1 6565 19473 19474 XOR";
"2 1 19537 19474 3587 XOR";
"2 1 16953 19474 6563 XOR";
"2 1 3588 16953 19348 XOR";
"2 1 3587 16954 19349 XOR";
"2 1 3522 16640 19604 XOR";
"2 1 3523 16640 19603 XOR";
"2 1 3525 16640 19601 XOR";
"2 1 19601 19474 6564 XOR";
"2 1 6564 6563 6562 AND";
"2 1 6562 19474 19475 XOR";
"2 1 19538 19475 3586 XOR";
"2 1 16954 19475 6560 XOR";
"2 1 3586 16955 19350 XOR";
"2 1 3524 16640 19602 XOR";
"2 1 19602 19475 6561 XOR";
"2 1 6561 6560 6559 AND";
"2 1 6559 19475 19476 XOR";
"2 1 16955 19476 6557 XOR";
"2 1 19603 19476 6558 XOR";
"2 1 6558 6557 6556 AND";
"2 1 6556 19476 19477 XOR";
"2 1 19540 19477 3584 XOR";
"2 1 16956 19477 6554 XOR";
"2 1 19604 19477 6555 XOR";
"2 1 6555 6554 6553 AND";
"2 1 19539 19476 3585 XOR";
"2 1 6553 19477 19478 XOR";
"2 1 19541 19478 3583 XOR";
"2 1 16957 19478 6551 XOR";
"2 1 3585 16956 19351 XOR";
"2 1 3584 16957 19352 XOR";
"2 1 3583 16958 19353 XOR";
"2 1 3521 16640 19605 XOR";
"2 1 19605 19478 6552 XOR";
"2 1 6552 6551 6550 AND";
"2 1 6550 19478 19479 XOR";
"2 1 19542 19479 3582 XOR";
"2 1 16958 19479 6548 XOR";
"2 1 19606 19479 6549 XOR";
"2 1 6549 6548 6547 AND";
"2 1 6547 19479 19480 XOR";
"2 1 19543 19480 3581 XOR";
"2 1 16959 19480 6545 XOR";
"2 1 3582 16959 19354 XOR";
"2 1 3581 16960 19355 XOR";
"2 1 3516 16640 19610 XOR";
"2 1 3517 16640 19609 XOR";
"2 1 3519 16640 19607 XOR";
"2 1 19607 19480 6546 XOR";
"2 1 6546 6545 6544 AND";
"2 1 6544 19480 19481 XOR";
"2 1 19544 19481 3580 XOR";
"2 1 16960 19481 6542 XOR";
"2 1 3580 16961 19356 XOR";
"2 1 3518 16640 19608 XOR";
"2 1 19608 19481 6543 XOR";
"2 1 6543 6542 6541 AND";
"2 1 6541 19481 19482 XOR";
"2 1 16961 19482 6539 XOR";
"2 1 19609 19482 6540 XOR";
"2 1 6540 6539 6538 AND";
"2 1 6538 19482 19483 XOR";
"2 1 19546 19483 3578 XOR";
"2 1 16962 19483 6536 XOR";
"2 1 19610 19483 6537 XOR";
"2 1 6537 6536 6535 AND";
"2 1 19545 19482 3579 XOR";
"2 1 6535 19483 19484 XOR";
"2 1 19547 19484 3577 XOR";
"2 1 16963 19484 6533 XOR";
"2 1 3579 16962 19357 XOR";
"2 1 3578 16963 19358 XOR";
"2 1 3577 16964 19359 XOR";
"2 1 3515 16640 19611 XOR";
"2 1 19611 19484 6534 XOR";
"2 1 6534 6533 6532 AND";
"2 1 6532 19484 19485 XOR";
"2 1 19548 19485 3576 XOR";
"2 1 16964 19485 6530 XOR";
"2 1 19612 19485 6531 XOR";
"2 1 6531 6530 6529 AND";
"2 1 6529 19485 19486 XOR";
"2 1 19549 19486 3575 XOR";
"2 1 16965 19486 6527 XOR";
"2 1 3576 16965 19360 XOR";
"2 1 3575 16966 19361 XOR";
"2 1 3510 16640 19616 XOR";
"2 1 3511 16640 19615 XOR";
"2 1 3513 16640 19613 XOR";
"2 1 19613 19486 6528 XOR";
"2 1 6528 6527 6526 AND";
"2 1 6526 19486 19487 XOR";
"2 1 19550 19487 3574 XOR";
"2 1 16966 19487 6524 XOR";
"2 1 3574 16967 19362 XOR";
"2 1 3512 16640 19614 XOR";
"2 1 19614 19487 6525 XOR";
"2 1 6525 6524 6523 AND";
"2 1 6523 19487 19488 XOR";
"2 1 16967 19488 6521 XOR";
"2 1 19615 19488 6522 XOR";
"2 1 6522 6521 6520 AND";
"2 1 6520 19488 19489 XOR";
"2 1 19552 19489 3572 XOR";
"2 1 16968 19489 6518 XOR";
"2 1 19616 19489 6519 XOR";
"2 1 6519 6518 6517 AND";
"2 1 19551 19488 3573 XOR";
"2 1 6517 19489 19490 XOR";
"2 1 19553 19490 3571 XOR";
"2 1 16969 19490 6515 XOR";
"2 1 3573 16968 19363 XOR";
"2 1 3572 16969 19364 XOR";
"2 1 3571 16970 19365 XOR";
"2 1 3509 16640 19617 XOR";
"2 1 19617 19490 6516 XOR";
"2 1 6516 6515 6514 AND";
"2 1 6514 19490 19491 XOR";
"2 1 19554 19491 3570 XOR";
"2 1 16970 19491 6512 XOR";
"2 1 19618 19491 6513 XOR";
"2 1 6513 6512 6511 AND";
"2 1 6511 19491 19492 XOR";
"2 1 19555 19492 3569 XOR";
"2 1 16971 19492 6509 XOR";
"2 1 3570 16971 19366 XOR";
"2 1 3569 16972 19367 XOR";
"2 1 3504 16640 19622 XOR";
"2 1 3505 16640 19621 XOR";
"2 1 3507 16640 19619 XOR";
"2 1 19619 19492 6510 XOR";
"2 1 6510 6509 6508 AND";
"2 1 6508 19492 19493 XOR";
"2 1 19556 19493 3568 XOR";
"2 1 16972 19493 6506 XOR";
"2 1 3568 16973 19368 XOR";
"2 1 3506 16640 19620 XOR";
"2 1 19620 19493 6507 XOR";
"2 1 6507 6506 6505 AND";
"2 1 6505 19493 19494 XOR";
"2 1 19557 19494 3567 XOR";
"2 1 3567 16974 19369 XOR";
"2 1 16973 19494 6503 XOR";
"2 1 19621 19494 6504 XOR";
"2 1 6504 6503 6502 AND";
"2 1 6502 19494 19495 XOR";
"2 1 19622 19495 6501 XOR";
"2 1 19558 19495 3566 XOR";
"2 1 3566 16975 19370 XOR";
"2 1 16974 19495 6500 XOR";
"2 1 6501 6500 6499 AND";
"2 1 6499 19495 19496 XOR";
"2 1 16975 19496 6497 XOR";
"2 1 19559 19496 3565 XOR";
"2 1 3565 16976 19371 XOR";
"2 1 3503 16640 19623 XOR";
"2 1 19623 19496 6498 XOR";
"2 1 6498 6497 6496 AND";
"2 1 6496 19496 19497 XOR";
"2 1 19624 19497 6495 XOR";
"2 1 19560 19497 3564 XOR";
"2 1 16976 19497 6494 XOR";
"2 1 6495 6494 6493 AND";
"2 1 6493 19497 19498 XOR";
"2 1 16977 19498 6491 XOR";
"2 1 3564 16977 19372 XOR";
"2 1 19561 19498 3563 XOR";
"2 1 3563 16978 19373 XOR";
"2 1 3498 16640 19628 XOR";
"2 1 3499 16640 19627 XOR";
"2 1 3501 16640 19625 XOR";
"2 1 19625 19498 6492 XOR";
"2 1 6492 6491 6490 AND";
"2 1 6490 19498 19499 XOR";
"2 1 19562 19499 3562 XOR";
"2 1 16978 19499 6488 XOR";
"2 1 3562 16979 19374 XOR";
"2 1 3500 16640 19626 XOR";
"2 1 19626 19499 6489 XOR";
"2 1 6489 6488 6487 AND";
"2 1 6487 19499 19500 XOR";
"2 1 16979 19500 6485 XOR";
"2 1 19563 19500 3561 XOR";
"2 1 19627 19500 6486 XOR";
"2 1 6486 6485 6484 AND";
"2 1 6484 19500 19501 XOR";
"2 1 3561 16980 19375 XOR";
"2 1 19564 19501 3560 XOR";
"2 1 3560 16981 19376 XOR";
"2 1 16980 19501 6482 XOR";
"2 1 19628 19501 6483 XOR";
"2 1 6483 6482 6481 AND";
"2 1 6481 19501 19502 XOR";
"2 1 16981 19502 6479 XOR";
"2 1 19565 19502 3559 XOR";
"2 1 3559 16982 19377 XOR";
"2 1 3497 16640 19629 XOR";
"2 1 19629 19502 6480 XOR";
"2 1 6480 6479 6478 AND";
"2 1 6478 19502 19503 XOR";
"2 1 19630 19503 6477 XOR";
"2 1 16982 19503 6476 XOR";
"2 1 6477 6476 6475 AND";
"2 1 6475 19503 19504 XOR";
"2 1 16983 19504 6473 XOR";
"2 1 19567 19504 3557 XOR";
"2 1 3557 16984 19379 XOR";
"2 1 19566 19503 3558 XOR";
"2 1 3558 16983 19378 XOR";
"2 1 3492 16640 19634 XOR";
"2 1 3493 16640 19633 XOR";
"2 1 3495 16640 19631 XOR";
"2 1 19631 19504 6474 XOR";
"2 1 6474 6473 6472 AND";
"2 1 6472 19504 19505 XOR";
"2 1 19568 19505 3556 XOR";
"2 1 16984 19505 6470 XOR";
"2 1 3556 16985 19380 XOR";
"2 1 3494 16640 19632 XOR";
"2 1 19632 19505 6471 XOR";
"2 1 6471 6470 6469 AND";
"2 1 6469 19505 19506 XOR";
"2 1 19569 19506 3555 XOR";
"2 1 19633 19506 6468 XOR";
"2 1 3555 16986 19381 XOR";
"2 1 16985 19506 6467 XOR";
"2 1 6468 6467 6466 AND";
"2 1 6466 19506 19507 XOR";
"2 1 16986 19507 6464 XOR";
"2 1 19634 19507 6465 XOR";
"2 1 6465 6464 6463 AND";
"2 1 6463 19507 19508 XOR";
"2 1 19571 19508 3553 XOR";
"2 1 16987 19508 6461 XOR";
"2 1 3553 16988 19383 XOR";
"2 1 19570 19507 3554 XOR";
"2 1 3554 16987 19382 XOR";
"2 1 3491 16640 19635 XOR";
"2 1 19635 19508 6462 XOR";
"2 1 6462 6461 6460 AND";
"2 1 6460 19508 19509 XOR";
"2 1 19572 19509 3552 XOR";
"2 1 16988 19509 6458 XOR";
"2 1 19636 19509 6459 XOR";
"2 1 6459 6458 6457 AND";
"2 1 6457 19509 19510 XOR";
"2 1 16989 19510 6455 XOR";
"2 1 19573 19510 3551 XOR";
"2 1 3552 16989 19384 XOR";
"2 1 3551 16990 19385 XOR";
"2 1 3486 16640 19640 XOR";
"2 1 3487 16640 19639 XOR";
"2 1 3489 16640 19637 XOR";
"2 1 19637 19510 6456 XOR";
"2 1 6456 6455 6454 AND";
"2 1 6454 19510 19511 XOR";
"2 1 19574 19511 3550 XOR";
"2 1 3550 16991 19386 XOR";
"2 1 16990 19511 6452 XOR";
"2 1 3488 16640 19638 XOR";
"2 1 19638 19511 6453 XOR";
"2 1 6453 6452 6451 AND";
"2 1 6451 19511 19512 XOR";
"2 1 16991 19512 6449 XOR";
"2 1 19575 19512 3549 XOR";
"2 1 3549 16992 19387 XOR";
"2 1 19639 19512 6450 XOR";
"2 1 6450 6449 6448 AND";
"2 1 6448 19512 19513 XOR";
"2 1 19640 19513 6447 XOR";
"2 1 19576 19513 3548 XOR";
"2 1 3548 16993 19388 XOR";
"2 1 16992 19513 6446 XOR";
"2 1 6447 6446 6445 AND";
"2 1 6445 19513 19514 XOR";
"2 1 19577 19514 3547 XOR";
"2 1 3547 16994 19389 XOR";
"2 1 16993 19514 6443 XOR";
"2 1 3485 16640 19641 XOR";
"2 1 19641 19514 6444 XOR";
"2 1 6444 6443 6442 AND";
"2 1 6442 19514 19515 XOR";
"2 1 19642 19515 6441 XOR";
"2 1 19578 19515 3546 XOR";
"2 1 16994 19515 6440 XOR";
"2 1 3546 16995 19390 XOR";
"2 1 6441 6440 6439 AND";
"2 1 6439 19515 19516 XOR";
"2 1 16995 19516 6437 XOR";
"2 1 19579 19516 3545 XOR";
"2 1 3545 16996 19391 XOR";
"2 1 3480 16640 19646 XOR";
"2 1 3481 16640 19645 XOR";
"2 1 3483 16640 19643 XOR";
"2 1 19643 19516 6438 XOR";
"2 1 6438 6437 6436 AND";
"2 1 6436 19516 19517 XOR";
"2 1 16996 19517 6434 XOR";
"2 1 19580 19517 3544 XOR";
"2 1 3544 16997 19392 XOR";
"2 1 3482 16640 19644 XOR";
"2 1 19644 19517 6435 XOR";
"2 1 6435 6434 6433 AND";
"2 1 6433 19517 19518 XOR";
"2 1 19581 19518 3543 XOR";
"2 1 3543 16998 19393 XOR";
"2 1 19645 19518 6432 XOR";
"2 1 16997 19518 6431 XOR";
"2 1 6432 6431 6430 AND";
"2 1 6430 19518 19519 XOR";
"2 1 19646 19519 6429 XOR";
"2 1 19582 19519 3542 XOR";
"2 1 16998 19519 6428 XOR";
"2 1 6429 6428 6427 AND";
"2 1 6427 19519 19520 XOR";
"2 1 19583 19520 3541 XOR";
"2 1 3542 16999 19394 XOR";
"2 1 3541 17000 19395 XOR";
"2 1 16999 19520 6425 XOR";
"2 1 3479 16640 19647 XOR";
"2 1 19647 19520 6426 XOR";
"2 1 3474 16640 19652 XOR";
"2 1 3475 16640 19651 XOR";
"2 1 3477 16640 19649 XOR";
"2 1 3476 16640 19650 XOR";
"2 1 3473 16640 19653 XOR";
"2 1 6426 6425 6424 AND";
"2 1 6424 19520 19521 XOR";
"2 1 17000 19521 6422 XOR";
"2 1 19584 19521 3540 XOR";
"2 1 3540 17001 19396 XOR";
"2 1 3470 16640 19656 XOR";
"2 1 19648 19521 6423 XOR";
"2 1 6423 6422 6421 AND";
"2 1 6421 19521 19522 XOR";
"2 1 19649 19522 6420 XOR";
"2 1 19585 19522 3539 XOR";
"2 1 3539 17002 19397 XOR";
"2 1 16640 4535 17524 AND";
"2 1 17001 19522 6419 XOR";
"2 1 6420 6419 6418 AND";
"2 1 6418 19522 19523 XOR";
"2 1 17002 19523 6416 XOR";
"2 1 19650 19523 6417 XOR";
"2 1 6417 6416 6415 AND";
"2 1 6415 19523 19524 XOR";
"2 1 19587 19524 3537 XOR";
"2 1 19651 19524 6414 XOR";
"2 1 3537 17004 19399 XOR";
"2 1 17003 19524 6413 XOR";
"2 1 6414 6413 6412 AND";
"2 1 6412 19524 19525 XOR";
"2 1 19652 19525 6411 XOR";
"2 1 17004 19525 6410 XOR";
"2 1 6411 6410 6409 AND";
"2 1 19588 19525 3536 XOR";
"2 1 3536 17005 19400 XOR";
"2 1 19586 19523 3538 XOR";
"2 1 3538 17003 19398 XOR";
"2 1 6409 19525 19526 XOR";
"2 1 19589 19526 3535 XOR";
"2 1 17005 19526 6407 XOR";
"2 1 3535 17006 19401 XOR";
"2 1 19653 19526 6408 XOR";
"2 1 6408 6407 6406 AND";
"2 1 6406 19526 19527 XOR";
"2 1 17006 19527 6404 XOR";
"2 1 19590 19527 3534 XOR";
"2 1 3534 17007 19402 XOR";
"2 1 3472 16640 19654 XOR";
"2 1 19654 19527 6405 XOR";
"2 1 6405 6404 6403 AND";
"2 1 6403 19527 19528 XOR";
"2 1 19655 19528 6402 XOR";
"2 1 17007 19528 6401 XOR";
"2 1 6402 6401 6400 AND";
"2 1 6400 19528 19529 XOR";
"2 1 19592 19529 3532 XOR";
"2 1 3532 17009 19404 XOR";
"2 1 17008 19529 6398 XOR";
"2 1 19656 19529 6399 XOR";
"2 1 6399 6398 6397 AND";
"2 1 6397 19529 19530 XOR";
"2 1 19593 19530 183 XOR";
"2 1 19591 19528 3533 XOR";
"2 1 3533 17008 19403 XOR";
"1 1 183 16639 INV";
"2 1 3533 16639 19467 XOR";
"2 1 16828 16639 19405 XOR";
"2 1 3589 16639 19411 XOR";
"2 1 3583 16639 19417 XOR";
"2 1 3577 16639 19423 XOR";
"2 1 3571 16639 19429 XOR";
"2 1 3565 16639 19435 XOR";
"2 1 3559 16639 19441 XOR";
"2 1 3553 16639 19447 XOR";
"2 1 3547 16639 19453 XOR";
"2 1 3541 16639 19459 XOR";
"2 1 3591 16639 19409 XOR";
"2 1 3592 16639 19408 XOR";
"2 1 3594 16639 19406 XOR";
"2 1 3593 16639 19407 XOR";
"2 1 3590 16639 19410 XOR";
"2 1 3585 16639 19415 XOR";
"2 1 3586 16639 19414 XOR";
"2 1 3588 16639 19412 XOR";
"2 1 3587 16639 19413 XOR";
"2 1 3584 16639 19416 XOR";
"2 1 3579 16639 19421 XOR";
"2 1 3580 16639 19420 XOR";
"2 1 3582 16639 19418 XOR";
"2 1 3581 16639 19419 XOR";
"2 1 3578 16639 19422 XOR";
"2 1 3573 16639 19427 XOR";
"2 1 3574 16639 19426 XOR";
"2 1 3576 16639 19424 XOR";
"2 1 3575 16639 19425 XOR";
"2 1 3572 16639 19428 XOR";
"2 1 3567 16639 19433 XOR";
"2 1 3568 16639 19432 XOR";
"2 1 3570 16639 19430 XOR";
"2 1 3569 16639 19431 XOR";
"2 1 3566 16639 19434 XOR";
"2 1 3561 16639 19439 XOR";
"2 1 3562 16639 19438 XOR";
"2 1 3564 16639 19436 XOR";
"2 1 3563 16639 19437 XOR";
"2 1 3560 16639 19440 XOR";
"2 1 3555 16639 19445 XOR";
"2 1 3556 16639 19444 XOR";
"2 1 3558 16639 19442 XOR";
"2 1 3557 16639 19443 XOR";
"2 1 3554 16639 19446 XOR";
"2 1 3549 16639 19451 XOR";
"2 1 3550 16639 19450 XOR";
"2 1 3552 16639 19448 XOR";
"2 1 3551 16639 19449 XOR";
"2 1 3548 16639 19452 XOR";
"2 1 3543 16639 19457 XOR";
"2 1 3544 16639 19456 XOR";
"2 1 3546 16639 19454 XOR";
"2 1 3545 16639 19455 XOR";
"2 1 3542 16639 19458 XOR";
"2 1 3537 16639 19463 XOR";
"2 1 3538 16639 19462 XOR";
"2 1 3540 16639 19460 XOR";
"2 1 3539 16639 19461 XOR";
"2 1 3536 16639 19464 XOR";
"2 1 3535 16639 19465 XOR";
"2 1 16639 4535 17523 AND";
"2 1 19405 16946 19279 AND";
"2 1 19406 19279 6396 XOR";
"2 1 19342 19279 3656 XOR";
"2 1 16947 19279 6395 XOR";
"2 1 6396 6395 6394 AND";
"2 1 6394 19279 19280 XOR";
"2 1 16948 19280 6392 XOR";
"2 1 19407 19280 6393 XOR";
"2 1 6393 6392 6391 AND";
"2 1 6391 19280 19281 XOR";
"2 1 19344 19281 3654 XOR";
"2 1 16949 19281 6389 XOR";
"2 1 19408 19281 6390 XOR";
"2 1 6390 6389 6388 AND";
"2 1 6388 19281 19282 XOR";
"2 1 19345 19282 3653 XOR";
"2 1 19409 19282 6387 XOR";
"2 1 16950 19282 6386 XOR";
"2 1 19343 19280 3655 XOR";
"2 1 6387 6386 6385 AND";
"2 1 6385 19282 19283 XOR";
"2 1 19346 19283 3652 XOR";
"2 1 16951 19283 6383 XOR";
"2 1 19410 19283 6384 XOR";
"2 1 6384 6383 6382 AND";
"2 1 6382 19283 19284 XOR";
"2 1 19347 19284 3651 XOR";
"2 1 19411 19284 6381 XOR";
"2 1 16952 19284 6380 XOR";
"2 1 6381 6380 6379 AND";
"2 1 6379 19284 19285 XOR";
"2 1 19412 19285 6378 XOR";
"2 1 19348 19285 3650 XOR";
"2 1 16953 19285 6377 XOR";
"2 1 6378 6377 6376 AND";
"2 1 6376 19285 19286 XOR";
"2 1 16954 19286 6374 XOR";
"2 1 19413 19286 6375 XOR";
"2 1 6375 6374 6373 AND";
"2 1 6373 19286 19287 XOR";
"2 1 19350 19287 3648 XOR";
"2 1 16955 19287 6371 XOR";
"2 1 19414 19287 6372 XOR";
"2 1 6372 6371 6370 AND";
"2 1 19349 19286 3649 XOR";
"2 1 6370 19287 19288 XOR";
"2 1 19351 19288 3647 XOR";
"2 1 19415 19288 6369 XOR";
"2 1 16956 19288 6368 XOR";
"2 1 6369 6368 6367 AND";
"2 1 6367 19288 19289 XOR";
"2 1 19352 19289 3646 XOR";
"2 1 16957 19289 6365 XOR";
"2 1 19416 19289 6366 XOR";
"2 1 6366 6365 6364 AND";
"2 1 6364 19289 19290 XOR";
"2 1 19353 19290 3645 XOR";
"2 1 19417 19290 6363 XOR";
"2 1 3656 16948 19154 XOR";
"2 1 3655 16949 19155 XOR";
"2 1 3654 16950 19156 XOR";
"2 1 3653 16951 19157 XOR";
"2 1 3652 16952 19158 XOR";
"2 1 3651 16953 19159 XOR";
"2 1 3650 16954 19160 XOR";
"2 1 3649 16955 19161 XOR";
"2 1 3648 16956 19162 XOR";
"2 1 3647 16957 19163 XOR";
"2 1 3646 16958 19164 XOR";
"2 1 3645 16959 19165 XOR";
"2 1 16958 19290 6362 XOR";
"2 1 6363 6362 6361 AND";
"2 1 6361 19290 19291 XOR";
"2 1 19418 19291 6360 XOR";
"2 1 19354 19291 3644 XOR";
"2 1 3644 16960 19166 XOR";
"2 1 16959 19291 6359 XOR";
"2 1 6360 6359 6358 AND";
"2 1 6358 19291 19292 XOR";
"2 1 16960 19292 6356 XOR";
"2 1 19419 19292 6357 XOR";
"2 1 6357 6356 6355 AND";
"2 1 6355 19292 19293 XOR";
"2 1 19420 19293 6354 XOR";
"2 1 16961 19293 6353 XOR";
"2 1 6354 6353 6352 AND";
"2 1 6352 19293 19294 XOR";
"2 1 19421 19294 6351 XOR";
"2 1 16962 19294 6350 XOR";
"2 1 6351 6350 6349 AND";
"2 1 6349 19294 19295 XOR";
"2 1 19422 19295 6348 XOR";
"2 1 19358 19295 3640 XOR";
"2 1 16963 19295 6347 XOR";
"2 1 6348 6347 6346 AND";
"2 1 6346 19295 19296 XOR";
"2 1 19359 19296 3639 XOR";
"2 1 16964 19296 6344 XOR";
"2 1 19423 19296 6345 XOR";
"2 1 6345 6344 6343 AND";
"2 1 6343 19296 19297 XOR";
"2 1 19424 19297 6342 XOR";
"2 1 19360 19297 3638 XOR";
"2 1 16965 19297 6341 XOR";
"2 1 6342 6341 6340 AND";
"2 1 6340 19297 19298 XOR";
"2 1 16966 19298 6338 XOR";
"2 1 19425 19298 6339 XOR";
"2 1 6339 6338 6337 AND";
"2 1 19361 19298 3637 XOR";
"2 1 6337 19298 19299 XOR";
"2 1 19362 19299 3636 XOR";
"2 1 19426 19299 6336 XOR";
"2 1 16967 19299 6335 XOR";
"2 1 6336 6335 6334 AND";
"2 1 6334 19299 19300 XOR";
"2 1 19427 19300 6333 XOR";
"2 1 19363 19300 3635 XOR";
"2 1 16968 19300 6332 XOR";
"2 1 6333 6332 6331 AND";
"2 1 6331 19300 19301 XOR";
"2 1 19364 19301 3634 XOR";
"2 1 19428 19301 6330 XOR";
"2 1 16969 19301 6329 XOR";
"2 1 6330 6329 6328 AND";
"2 1 6328 19301 19302 XOR";
"2 1 16970 19302 6326 XOR";
"2 1 19429 19302 6327 XOR";
"2 1 6327 6326 6325 AND";
"2 1 6325 19302 19303 XOR";
"2 1 19430 19303 6324 XOR";
"2 1 19366 19303 3632 XOR";
"2 1 19365 19302 3633 XOR";
"2 1 16971 19303 6323 XOR";
"2 1 6324 6323 6322 AND";
"2 1 6322 19303 19304 XOR";
"2 1 16972 19304 6320 XOR";
"2 1 19431 19304 6321 XOR";
"2 1 6321 6320 6319 AND";
"2 1 6319 19304 19305 XOR";
"2 1 19368 19305 3630 XOR";
"2 1 16973 19305 6317 XOR";
"2 1 19432 19305 6318 XOR";
"2 1 6318 6317 6316 AND";
"2 1 6316 19305 19306 XOR";
"2 1 19369 19306 3629 XOR";
"2 1 16974 19306 6314 XOR";
"2 1 19433 19306 6315 XOR";
"2 1 6315 6314 6313 AND";
"2 1 6313 19306 19307 XOR";
"2 1 16975 19307 6311 XOR";
"2 1 19370 19307 3628 XOR";
"2 1 19356 19293 3642 XOR";
"2 1 3642 16962 19168 XOR";
"2 1 3640 16964 19170 XOR";
"2 1 3639 16965 19171 XOR";
"2 1 3638 16966 19172 XOR";
"2 1 3637 16967 19173 XOR";
"2 1 3636 16968 19174 XOR";
"2 1 3635 16969 19175 XOR";
"2 1 3634 16970 19176 XOR";
"2 1 3633 16971 19177 XOR";
"2 1 3632 16972 19178 XOR";
"2 1 3630 16974 19180 XOR";
"2 1 3629 16975 19181 XOR";
"2 1 3628 16976 19182 XOR";
"2 1 19355 19292 3643 XOR";
"2 1 3643 16961 19167 XOR";
"2 1 19357 19294 3641 XOR";
"2 1 3641 16963 19169 XOR";
"2 1 19434 19307 6312 XOR";
"2 1 6312 6311 6310 AND";
"2 1 6310 19307 19308 XOR";
"2 1 19435 19308 6309 XOR";
"2 1 16976 19308 6308 XOR";
"2 1 6309 6308 6307 AND";
"2 1 6307 19308 19309 XOR";
"2 1 16977 19309 6305 XOR";
"2 1 19436 19309 6306 XOR";
"2 1 19372 19309 3626 XOR";
"2 1 6306 6305 6304 AND";
"2 1 6304 19309 19310 XOR";
"2 1 19373 19310 3625 XOR";
"2 1 16978 19310 6302 XOR";
"2 1 19371 19308 3627 XOR";
"2 1 19437 19310 6303 XOR";
"2 1 6303 6302 6301 AND";
"2 1 6301 19310 19311 XOR";
"2 1 19374 19311 3624 XOR";
"2 1 16979 19311 6299 XOR";
"2 1 19438 19311 6300 XOR";
"2 1 6300 6299 6298 AND";
"2 1 6298 19311 19312 XOR";
"2 1 19375 19312 3623 XOR";
"2 1 19439 19312 6297 XOR";
"2 1 16980 19312 6296 XOR";
"2 1 6297 6296 6295 AND";
"2 1 6295 19312 19313 XOR";
"2 1 19440 19313 6294 XOR";
"2 1 19376 19313 3622 XOR";
"2 1 16981 19313 6293 XOR";
"2 1 6294 6293 6292 AND";
"2 1 6292 19313 19314 XOR";
"2 1 16982 19314 6290 XOR";
"2 1 19377 19314 3621 XOR";
"2 1 19441 19314 6291 XOR";
"2 1 6291 6290 6289 AND";
"2 1 6289 19314 19315 XOR";
"2 1 3627 16977 19183 XOR";
"2 1 3626 16978 19184 XOR";
"2 1 3625 16979 19185 XOR";
"2 1 3624 16980 19186 XOR";
"2 1 3623 16981 19187 XOR";
"2 1 3622 16982 19188 XOR";
"2 1 3621 16983 19189 XOR";
"2 1 19442 19315 6288 XOR";
"2 1 19378 19315 3620 XOR";
"2 1 3620 16984 19190 XOR";
"2 1 16983 19315 6287 XOR";
"2 1 6288 6287 6286 AND";
"2 1 6286 19315 19316 XOR";
"2 1 16984 19316 6284 XOR";
"2 1 19379 19316 3619 XOR";
"2 1 19443 19316 6285 XOR";
"2 1 6285 6284 6283 AND";
"2 1 6283 19316 19317 XOR";
"2 1 16985 19317 6281 XOR";
"2 1 19380 19317 3618 XOR";
"2 1 19444 19317 6282 XOR";
"2 1 6282 6281 6280 AND";
"2 1 6280 19317 19318 XOR";
"2 1 19445 19318 6279 XOR";
"2 1 19381 19318 3617 XOR";
"2 1 16986 19318 6278 XOR";
"2 1 3619 16985 19191 XOR";
"2 1 3618 16986 19192 XOR";
"2 1 3617 16987 19193 XOR";
"2 1 6279 6278 6277 AND";
"2 1 6277 19318 19319 XOR";
"2 1 19382 19319 3616 XOR";
"2 1 19446 19319 6276 XOR";
"2 1 16987 19319 6275 XOR";
"2 1 6276 6275 6274 AND";
"2 1 6274 19319 19320 XOR";
"2 1 16988 19320 6272 XOR";
"2 1 19383 19320 3615 XOR";
"2 1 19447 19320 6273 XOR";
"2 1 6273 6272 6271 AND";
"2 1 6271 19320 19321 XOR";
"2 1 19384 19321 3614 XOR";
"2 1 19448 19321 6270 XOR";
"2 1 16989 19321 6269 XOR";
"2 1 6270 6269 6268 AND";
"2 1 6268 19321 19322 XOR";
"2 1 16990 19322 6266 XOR";
"2 1 19385 19322 3613 XOR";
"2 1 19449 19322 6267 XOR";
"2 1 6267 6266 6265 AND";
"2 1 6265 19322 19323 XOR";
"2 1 16991 19323 6263 XOR";
"2 1 19386 19323 3612 XOR";
"2 1 19450 19323 6264 XOR";
"2 1 6264 6263 6262 AND";
"2 1 6262 19323 19324 XOR";
"2 1 19387 19324 3611 XOR";
"2 1 19451 19324 6261 XOR";
"2 1 16992 19324 6260 XOR";
"2 1 3616 16988 19194 XOR";
"2 1 3615 16989 19195 XOR";
"2 1 3614 16990 19196 XOR";
"2 1 3613 16991 19197 XOR";
"2 1 3612 16992 19198 XOR";
"2 1 3611 16993 19199 XOR";
"2 1 6261 6260 6259 AND";
"2 1 6259 19324 19325 XOR";
"2 1 19452 19325 6258 XOR";
"2 1 19388 19325 3610 XOR";
"2 1 16993 19325 6257 XOR";
"2 1 6258 6257 6256 AND";
"2 1 6256 19325 19326 XOR";
"2 1 16994 19326 6254 XOR";
"2 1 19389 19326 3609 XOR";
"2 1 3610 16994 19200 XOR";
"2 1 3609 16995 19201 XOR";
"2 1 19453 19326 6255 XOR";
"2 1 6255 6254 6253 AND";
"2 1 6253 19326 19327 XOR";
"2 1 16995 19327 6251 XOR";
"2 1 19454 19327 6252 XOR";
"2 1 6252 6251 6250 AND";
"2 1 6250 19327 19328 XOR";
"2 1 19455 19328 6249 XOR";
"2 1 16996 19328 6248 XOR";
"2 1 6249 6248 6247 AND";
"2 1 6247 19328 19329 XOR";
"2 1 19392 19329 3606 XOR";
"2 1 16997 19329 6245 XOR";
"2 1 19456 19329 6246 XOR";
"2 1 6246 6245 6244 AND";
"2 1 19391 19328 3607 XOR";
"2 1 6244 19329 19330 XOR";
"2 1 19393 19330 3605 XOR";
"2 1 19457 19330 6243 XOR";
"2 1 16998 19330 6242 XOR";
"2 1 6243 6242 6241 AND";
"2 1 6241 19330 19331 XOR";
"2 1 19458 19331 6240 XOR";
"2 1 19394 19331 3604 XOR";
"2 1 16999 19331 6239 XOR";
"2 1 6240 6239 6238 AND";
"2 1 6238 19331 19332 XOR";
"2 1 19395 19332 3603 XOR";
"2 1 19459 19332 6237 XOR";
"2 1 17000 19332 6236 XOR";
"2 1 6237 6236 6235 AND";
"2 1 3607 16997 19203 XOR";
"2 1 3606 16998 19204 XOR";
"2 1 3605 16999 19205 XOR";
"2 1 3604 17000 19206 XOR";
"2 1 3603 17001 19207 XOR";
"2 1 6235 19332 19333 XOR";
"2 1 19396 19333 3602 XOR";
"2 1 19460 19333 6234 XOR";
"2 1 17001 19333 6233 XOR";
"2 1 6234 6233 6232 AND";
"2 1 3602 17002 19208 XOR";
"2 1 6232 19333 19334 XOR";
"2 1 19397 19334 3601 XOR";
"2 1 17002 19334 6230 XOR";
"2 1 19461 19334 6231 XOR";
"2 1 6231 6230 6229 AND";
"2 1 3601 17003 19209 XOR";
"2 1 6229 19334 19335 XOR";
"2 1 19462 19335 6228 XOR";
"2 1 19398 19335 3600 XOR";
"2 1 17003 19335 6227 XOR";
"2 1 6228 6227 6226 AND";
"2 1 6226 19335 19336 XOR";
"2 1 19463 19336 6225 XOR";
"2 1 17004 19336 6224 XOR";
"2 1 6225 6224 6223 AND";
"2 1 19399 19336 3599 XOR";
"2 1 6223 19336 19337 XOR";
"2 1 19400 19337 3598 XOR";
"2 1 17005 19337 6221 XOR";
"2 1 3600 17004 19210 XOR";
"2 1 3599 17005 19211 XOR";
"2 1 3598 17006 19212 XOR";
"2 1 19464 19337 6222 XOR";
"2 1 6222 6221 6220 AND";
"2 1 6220 19337 19338 XOR";
"2 1 19401 19338 3597 XOR";
"2 1 19465 19338 6219 XOR";
"2 1 3597 17007 19213 XOR";
"2 1 17006 19338 6218 XOR";
"2 1 6219 6218 6217 AND";
"2 1 6217 19338 19339 XOR";
"2 1 19402 19339 3596 XOR";
"2 1 17007 19339 6215 XOR";
"2 1 3596 17008 19214 XOR";
"2 1 19390 19327 3608 XOR";
"2 1 3608 16996 19202 XOR";
"2 1 19367 19304 3631 XOR";
"2 1 3631 16973 19179 XOR";
"2 1 3534 16639 19466 XOR";
"2 1 19466 19339 6216 XOR";
"2 1 6216 6215 6214 AND";
"2 1 6214 19339 19340 XOR";
"2 1 19403 19340 3595 XOR";
"2 1 17008 19340 6212 XOR";
"2 1 19467 19340 6213 XOR";
"2 1 6213 6212 6211 AND";
"2 1 3595 17009 19215 XOR";
"2 1 6211 19340 19341 XOR";
"2 1 19404 19341 184 XOR";
"1 1 184 16638 INV";
"2 1 3657 16638 19217 XOR";
"2 1 3651 16638 19223 XOR";
"2 1 3645 16638 19229 XOR";
"2 1 3639 16638 19235 XOR";
"2 1 3633 16638 19241 XOR";
"2 1 3627 16638 19247 XOR";
"2 1 3621 16638 19253 XOR";
"2 1 3615 16638 19259 XOR";
"2 1 3609 16638 19265 XOR";
"2 1 3603 16638 19271 XOR";
"2 1 3596 16638 19278 XOR";
"2 1 16827 16638 19216 XOR";
"2 1 19216 16946 19090 AND";
"2 1 19217 19090 6210 XOR";
"2 1 19153 19090 3719 XOR";
"2 1 16947 19090 6209 XOR";
"2 1 6210 6209 6208 AND";
"2 1 6208 19090 19091 XOR";
"2 1 16948 19091 6206 XOR";
"2 1 19154 19091 3718 XOR";
"2 1 3719 16948 18965 XOR";
"2 1 3718 16949 18966 XOR";
"2 1 3653 16638 19221 XOR";
"2 1 3654 16638 19220 XOR";
"2 1 3656 16638 19218 XOR";
"2 1 19218 19091 6207 XOR";
"2 1 6207 6206 6205 AND";
"2 1 6205 19091 19092 XOR";
"2 1 19155 19092 3717 XOR";
"2 1 16949 19092 6203 XOR";
"2 1 3717 16950 18967 XOR";
"2 1 3655 16638 19219 XOR";
"2 1 19219 19092 6204 XOR";
"2 1 6204 6203 6202 AND";
"2 1 6202 19092 19093 XOR";
"2 1 19156 19093 3716 XOR";
"2 1 19220 19093 6201 XOR";
"2 1 16950 19093 6200 XOR";
"2 1 6201 6200 6199 AND";
"2 1 6199 19093 19094 XOR";
"2 1 19157 19094 3715 XOR";
"2 1 16951 19094 6197 XOR";
"2 1 19221 19094 6198 XOR";
"2 1 6198 6197 6196 AND";
"2 1 6196 19094 19095 XOR";
"2 1 19158 19095 3714 XOR";
"2 1 16952 19095 6194 XOR";
"2 1 3716 16951 18968 XOR";
"2 1 3715 16952 18969 XOR";
"2 1 3714 16953 18970 XOR";
"2 1 3652 16638 19222 XOR";
"2 1 19222 19095 6195 XOR";
"2 1 6195 6194 6193 AND";
"2 1 6193 19095 19096 XOR";
"2 1 19223 19096 6192 XOR";
"2 1 19159 19096 3713 XOR";
"2 1 16953 19096 6191 XOR";
"2 1 6192 6191 6190 AND";
"2 1 6190 19096 19097 XOR";
"2 1 16954 19097 6188 XOR";
"2 1 19160 19097 3712 XOR";
"2 1 3713 16954 18971 XOR";
"2 1 3712 16955 18972 XOR";
"2 1 3647 16638 19227 XOR";
"2 1 3648 16638 19226 XOR";
"2 1 3650 16638 19224 XOR";
"2 1 19224 19097 6189 XOR";
"2 1 6189 6188 6187 AND";
"2 1 6187 19097 19098 XOR";
"2 1 19161 19098 3711 XOR";
"2 1 16955 19098 6185 XOR";
"2 1 3711 16956 18973 XOR";
"2 1 3649 16638 19225 XOR";
"2 1 19225 19098 6186 XOR";
"2 1 6186 6185 6184 AND";
"2 1 6184 19098 19099 XOR";
"2 1 19162 19099 3710 XOR";
"2 1 19226 19099 6183 XOR";
"2 1 16956 19099 6182 XOR";
"2 1 6183 6182 6181 AND";
"2 1 6181 19099 19100 XOR";
"2 1 19163 19100 3709 XOR";
"2 1 16957 19100 6179 XOR";
"2 1 19227 19100 6180 XOR";
"2 1 6180 6179 6178 AND";
"2 1 6178 19100 19101 XOR";
"2 1 19164 19101 3708 XOR";
"2 1 16958 19101 6176 XOR";
"2 1 3710 16957 18974 XOR";
"2 1 3709 16958 18975 XOR";
"2 1 3708 16959 18976 XOR";
"2 1 3646 16638 19228 XOR";
"2 1 19228 19101 6177 XOR";
"2 1 6177 6176 6175 AND";
"2 1 6175 19101 19102 XOR";
"2 1 19229 19102 6174 XOR";
"2 1 19165 19102 3707 XOR";
"2 1 16959 19102 6173 XOR";
"2 1 6174 6173 6172 AND";
"2 1 6172 19102 19103 XOR";
"2 1 16960 19103 6170 XOR";
"2 1 19166 19103 3706 XOR";
"2 1 3707 16960 18977 XOR";
"2 1 3706 16961 18978 XOR";
"2 1 3641 16638 19233 XOR";
"2 1 3642 16638 19232 XOR";
"2 1 3644 16638 19230 XOR";
"2 1 19230 19103 6171 XOR";
"2 1 6171 6170 6169 AND";
"2 1 6169 19103 19104 XOR";
"2 1 19167 19104 3705 XOR";
"2 1 16961 19104 6167 XOR";
"2 1 3705 16962 18979 XOR";
"2 1 3643 16638 19231 XOR";
"2 1 19231 19104 6168 XOR";
"2 1 6168 6167 6166 AND";
"2 1 6166 19104 19105 XOR";
"2 1 19168 19105 3704 XOR";
"2 1 19232 19105 6165 XOR";
"2 1 16962 19105 6164 XOR";
"2 1 6165 6164 6163 AND";
"2 1 6163 19105 19106 XOR";
"2 1 19169 19106 3703 XOR";
"2 1 16963 19106 6161 XOR";
"2 1 19233 19106 6162 XOR";
"2 1 6162 6161 6160 AND";
"2 1 6160 19106 19107 XOR";
"2 1 19170 19107 3702 XOR";
"2 1 16964 19107 6158 XOR";
"2 1 3704 16963 18980 XOR";
"2 1 3703 16964 18981 XOR";
"2 1 3702 16965 18982 XOR";
"2 1 3640 16638 19234 XOR";
"2 1 19234 19107 6159 XOR";
"2 1 6159 6158 6157 AND";
"2 1 6157 19107 19108 XOR";
"2 1 19235 19108 6156 XOR";
"2 1 19171 19108 3701 XOR";
"2 1 16965 19108 6155 XOR";
"2 1 6156 6155 6154 AND";
"2 1 6154 19108 19109 XOR";
"2 1 16966 19109 6152 XOR";
"2 1 19172 19109 3700 XOR";
"2 1 3701 16966 18983 XOR";
"2 1 3700 16967 18984 XOR";
"2 1 3635 16638 19239 XOR";
"2 1 3636 16638 19238 XOR";
"2 1 3638 16638 19236 XOR";
"2 1 19236 19109 6153 XOR";
"2 1 6153 6152 6151 AND";
"2 1 6151 19109 19110 XOR";
"2 1 19173 19110 3699 XOR";
"2 1 16967 19110 6149 XOR";
"2 1 3699 16968 18985 XOR";
"2 1 3637 16638 19237 XOR";
"2 1 19237 19110 6150 XOR";
"2 1 6150 6149 6148 AND";
"2 1 6148 19110 19111 XOR";
"2 1 19174 19111 3698 XOR";
"2 1 19238 19111 6147 XOR";
"2 1 16968 19111 6146 XOR";
"2 1 6147 6146 6145 AND";
"2 1 6145 19111 19112 XOR";
"2 1 19175 19112 3697 XOR";
"2 1 16969 19112 6143 XOR";
"2 1 19239 19112 6144 XOR";
"2 1 6144 6143 6142 AND";
"2 1 6142 19112 19113 XOR";
"2 1 19176 19113 3696 XOR";
"2 1 16970 19113 6140 XOR";
"2 1 3698 16969 18986 XOR";
"2 1 3697 16970 18987 XOR";
"2 1 3696 16971 18988 XOR";
"2 1 3634 16638 19240 XOR";
"2 1 19240 19113 6141 XOR";
"2 1 6141 6140 6139 AND";
"2 1 6139 19113 19114 XOR";
"2 1 19241 19114 6138 XOR";
"2 1 19177 19114 3695 XOR";
"2 1 16971 19114 6137 XOR";
"2 1 6138 6137 6136 AND";
"2 1 6136 19114 19115 XOR";
"2 1 16972 19115 6134 XOR";
"2 1 19178 19115 3694 XOR";
"2 1 3695 16972 18989 XOR";
"2 1 3694 16973 18990 XOR";
"2 1 3629 16638 19245 XOR";
"2 1 3630 16638 19244 XOR";
"2 1 3632 16638 19242 XOR";
"2 1 19242 19115 6135 XOR";
"2 1 6135 6134 6133 AND";
"2 1 6133 19115 19116 XOR";
"2 1 16973 19116 6131 XOR";
"2 1 19179 19116 3693 XOR";
"2 1 3693 16974 18991 XOR";
"2 1 3631 16638 19243 XOR";
"2 1 19243 19116 6132 XOR";
"2 1 6132 6131 6130 AND";
"2 1 6130 19116 19117 XOR";
"2 1 19180 19117 3692 XOR";
"2 1 3692 16975 18992 XOR";
"2 1 16974 19117 6128 XOR";
"2 1 19244 19117 6129 XOR";
"2 1 6129 6128 6127 AND";
"2 1 6127 19117 19118 XOR";
"2 1 19245 19118 6126 XOR";
"2 1 16975 19118 6125 XOR";
"2 1 6126 6125 6124 AND";
"2 1 6124 19118 19119 XOR";
"2 1 16976 19119 6122 XOR";
"2 1 19182 19119 3690 XOR";
"2 1 3690 16977 18994 XOR";
"2 1 19181 19118 3691 XOR";
"2 1 3691 16976 18993 XOR";
"2 1 3628 16638 19246 XOR";
"2 1 19246 19119 6123 XOR";
"2 1 6123 6122 6121 AND";
"2 1 6121 19119 19120 XOR";
"2 1 16977 19120 6119 XOR";
"2 1 19183 19120 3689 XOR";
"2 1 3689 16978 18995 XOR";
"2 1 19247 19120 6120 XOR";
"2 1 6120 6119 6118 AND";
"2 1 6118 19120 19121 XOR";
"2 1 16978 19121 6116 XOR";
"2 1 19184 19121 3688 XOR";
"2 1 3688 16979 18996 XOR";
"2 1 3623 16638 19251 XOR";
"2 1 3624 16638 19250 XOR";
"2 1 3626 16638 19248 XOR";
"2 1 19248 19121 6117 XOR";
"2 1 6117 6116 6115 AND";
"2 1 6115 19121 19122 XOR";
"2 1 16979 19122 6113 XOR";
"2 1 19185 19122 3687 XOR";
"2 1 3687 16980 18997 XOR";
"2 1 3625 16638 19249 XOR";
"2 1 19249 19122 6114 XOR";
"2 1 6114 6113 6112 AND";
"2 1 6112 19122 19123 XOR";
"2 1 16980 19123 6110 XOR";
"2 1 19250 19123 6111 XOR";
"2 1 6111 6110 6109 AND";
"2 1 6109 19123 19124 XOR";
"2 1 19251 19124 6108 XOR";
"2 1 19187 19124 3685 XOR";
"2 1 16981 19124 6107 XOR";
"2 1 6108 6107 6106 AND";
"2 1 3685 16982 18999 XOR";
"2 1 6106 19124 19125 XOR";
"2 1 16982 19125 6104 XOR";
"2 1 19186 19123 3686 XOR";
"2 1 3686 16981 18998 XOR";
"2 1 19188 19125 3684 XOR";
"2 1 3684 16983 19000 XOR";
"2 1 3622 16638 19252 XOR";
"2 1 19252 19125 6105 XOR";
"2 1 6105 6104 6103 AND";
"2 1 6103 19125 19126 XOR";
"2 1 16983 19126 6101 XOR";
"2 1 19189 19126 3683 XOR";
"2 1 3683 16984 19001 XOR";
"2 1 19253 19126 6102 XOR";
"2 1 6102 6101 6100 AND";
"2 1 6100 19126 19127 XOR";
"2 1 19190 19127 3682 XOR";
"2 1 16984 19127 6098 XOR";
"2 1 3682 16985 19002 XOR";
"2 1 3617 16638 19257 XOR";
"2 1 3618 16638 19256 XOR";
"2 1 3620 16638 19254 XOR";
"2 1 19254 19127 6099 XOR";
"2 1 6099 6098 6097 AND";
"2 1 6097 19127 19128 XOR";
"2 1 16985 19128 6095 XOR";
"2 1 19191 19128 3681 XOR";
"2 1 3681 16986 19003 XOR";
"2 1 3619 16638 19255 XOR";
"2 1 19255 19128 6096 XOR";
"2 1 6096 6095 6094 AND";
"2 1 6094 19128 19129 XOR";
"2 1 16986 19129 6092 XOR";
"2 1 19192 19129 3680 XOR";
"2 1 19256 19129 6093 XOR";
"2 1 6093 6092 6091 AND";
"2 1 6091 19129 19130 XOR";
"2 1 19257 19130 6090 XOR";
"2 1 19193 19130 3679 XOR";
"2 1 3680 16987 19004 XOR";
"2 1 3679 16988 19005 XOR";
"2 1 16987 19130 6089 XOR";
"2 1 6090 6089 6088 AND";
"2 1 6088 19130 19131 XOR";
"2 1 16988 19131 6086 XOR";
"2 1 19194 19131 3678 XOR";
"2 1 3678 16989 19006 XOR";
"2 1 3616 16638 19258 XOR";
"2 1 19258 19131 6087 XOR";
"2 1 6087 6086 6085 AND";
"2 1 6085 19131 19132 XOR";
"2 1 16989 19132 6083 XOR";
"2 1 19259 19132 6084 XOR";
"2 1 19195 19132 3677 XOR";
"2 1 3677 16990 19007 XOR";
"2 1 6084 6083 6082 AND";
"2 1 6082 19132 19133 XOR";
"2 1 16990 19133 6080 XOR";
"2 1 19196 19133 3676 XOR";
"2 1 3676 16991 19008 XOR";
"2 1 3611 16638 19263 XOR";
"2 1 3612 16638 19262 XOR";
"2 1 3614 16638 19260 XOR";
"2 1 19260 19133 6081 XOR";
"2 1 6081 6080 6079 AND";
"2 1 6079 19133 19134 XOR";
"2 1 16991 19134 6077 XOR";
"2 1 19197 19134 3675 XOR";
"2 1 3675 16992 19009 XOR";
"2 1 3613 16638 19261 XOR";
"2 1 19261 19134 6078 XOR";
"2 1 6078 6077 6076 AND";
"2 1 6076 19134 19135 XOR";
"2 1 16992 19135 6074 XOR";
"2 1 19198 19135 3674 XOR";
"2 1 19262 19135 6075 XOR";
"2 1 6075 6074 6073 AND";
"2 1 3674 16993 19010 XOR";
"2 1 6073 19135 19136 XOR";
"2 1 19263 19136 6072 XOR";
"2 1 16993 19136 6071 XOR";
"2 1 6072 6071 6070 AND";
"2 1 6070 19136 19137 XOR";
"2 1 16994 19137 6068 XOR";
"2 1 19199 19136 3673 XOR";
"2 1 3673 16994 19011 XOR";
"2 1 19200 19137 3672 XOR";
"2 1 3672 16995 19012 XOR";
"2 1 3610 16638 19264 XOR";
"2 1 19264 19137 6069 XOR";
"2 1 6069 6068 6067 AND";
"2 1 6067 19137 19138 XOR";
"2 1 19201 19138 3671 XOR";
"2 1 16995 19138 6065 XOR";
"2 1 3671 16996 19013 XOR";
"2 1 19265 19138 6066 XOR";
"2 1 6066 6065 6064 AND";
"2 1 6064 19138 19139 XOR";
"2 1 16996 19139 6062 XOR";
"2 1 19202 19139 3670 XOR";
"2 1 3670 16997 19014 XOR";
"2 1 3605 16638 19269 XOR";
"2 1 3606 16638 19268 XOR";
"2 1 3608 16638 19266 XOR";
"2 1 19266 19139 6063 XOR";
"2 1 6063 6062 6061 AND";
"2 1 6061 19139 19140 XOR";
"2 1 19203 19140 3669 XOR";
"2 1 3669 16998 19015 XOR";
"2 1 16997 19140 6059 XOR";
"2 1 3607 16638 19267 XOR";
"2 1 19267 19140 6060 XOR";
"2 1 6060 6059 6058 AND";
"2 1 6058 19140 19141 XOR";
"2 1 19204 19141 3668 XOR";
"2 1 3668 16999 19016 XOR";
"2 1 16998 19141 6056 XOR";
"2 1 19268 19141 6057 XOR";
"2 1 6057 6056 6055 AND";
"2 1 6055 19141 19142 XOR";
"2 1 19269 19142 6054 XOR";
"2 1 16999 19142 6053 XOR";
"2 1 19205 19142 3667 XOR";
"2 1 3667 17000 19017 XOR";
"2 1 6054 6053 6052 AND";
"2 1 6052 19142 19143 XOR";
"2 1 19206 19143 3666 XOR";
"2 1 3666 17001 19018 XOR";
"2 1 3604 16638 19270 XOR";
"2 1 19270 19143 6051 XOR";
"2 1 3599 16638 19275 XOR";
"2 1 3600 16638 19274 XOR";
"2 1 3602 16638 19272 XOR";
"2 1 3601 16638 19273 XOR";
"2 1 3598 16638 19276 XOR";
"2 1 17000 19143 6050 XOR";
"2 1 6051 6050 6049 AND";
"2 1 6049 19143 19144 XOR";
"2 1 19207 19144 3665 XOR";
"2 1 17001 19144 6047 XOR";
"2 1 3665 17002 19019 XOR";
"2 1 19271 19144 6048 XOR";
"2 1 6048 6047 6046 AND";
"2 1 6046 19144 19145 XOR";
"2 1 17002 19145 6044 XOR";
"2 1 19272 19145 6045 XOR";
"2 1 6045 6044 6043 AND";
"2 1 6043 19145 19146 XOR";
"2 1 19273 19146 6042 XOR";
"2 1 17003 19146 6041 XOR";
"2 1 6042 6041 6040 AND";
"2 1 19209 19146 3663 XOR";
"2 1 3663 17004 19021 XOR";
"2 1 19208 19145 3664 XOR";
"2 1 3664 17003 19020 XOR";
"2 1 16638 4535 17522 AND";
"2 1 6040 19146 19147 XOR";
"2 1 17004 19147 6038 XOR";
"2 1 19210 19147 3662 XOR";
"2 1 3662 17005 19022 XOR";
"2 1 19274 19147 6039 XOR";
"2 1 6039 6038 6037 AND";
"2 1 6037 19147 19148 XOR";
"2 1 19275 19148 6036 XOR";
"2 1 19211 19148 3661 XOR";
"2 1 17005 19148 6035 XOR";
"2 1 6036 6035 6034 AND";
"2 1 6034 19148 19149 XOR";
"2 1 3661 17006 19023 XOR";
"2 1 17006 19149 6032 XOR";
"2 1 19212 19149 3660 XOR";
"2 1 3660 17007 19024 XOR";
"2 1 19276 19149 6033 XOR";
"2 1 6033 6032 6031 AND";
"2 1 6031 19149 19150 XOR";
"2 1 19213 19150 3659 XOR";
"2 1 3659 17008 19025 XOR";
"2 1 17007 19150 6029 XOR";
"2 1 3597 16638 19277 XOR";
"2 1 19277 19150 6030 XOR";
"2 1 6030 6029 6028 AND";
"2 1 6028 19150 19151 XOR";
"2 1 17008 19151 6026 XOR";
"2 1 19278 19151 6027 XOR";
"2 1 6027 6026 6025 AND";
"2 1 6025 19151 19152 XOR";
"2 1 19215 19152 185 XOR";
"2 1 19214 19151 3658 XOR";
"2 1 3658 17009 19026 XOR";
"1 1 185 16637 INV";
"2 1 3720 16637 19028 XOR";
"2 1 3714 16637 19034 XOR";
"2 1 3708 16637 19040 XOR";
"2 1 3702 16637 19046 XOR";
"2 1 3696 16637 19052 XOR";
"2 1 3690 16637 19058 XOR";
"2 1 3684 16637 19064 XOR";
"2 1 3678 16637 19070 XOR";
"2 1 3672 16637 19076 XOR";
"2 1 3666 16637 19082 XOR";
"2 1 16826 16637 19027 XOR";
"2 1 19027 16946 18901 AND";
"2 1 16947 18901 6023 XOR";
"2 1 19028 18901 6024 XOR";
"2 1 6024 6023 6022 AND";
"2 1 6022 18901 18902 XOR";
"2 1 18965 18902 3781 XOR";
"2 1 16948 18902 6020 XOR";
"2 1 18964 18901 3782 XOR";
"2 1 3782 16948 18776 XOR";
"2 1 3781 16949 18777 XOR";
"2 1 3716 16637 19032 XOR";
"2 1 3717 16637 19031 XOR";
"2 1 3719 16637 19029 XOR";
"2 1 19029 18902 6021 XOR";
"2 1 6021 6020 6019 AND";
"2 1 6019 18902 18903 XOR";
"2 1 18966 18903 3780 XOR";
"2 1 16949 18903 6017 XOR";
"2 1 3780 16950 18778 XOR";
"2 1 3718 16637 19030 XOR";
"2 1 19030 18903 6018 XOR";
"2 1 6018 6017 6016 AND";
"2 1 6016 18903 18904 XOR";
"2 1 19031 18904 6015 XOR";
"2 1 18967 18904 3779 XOR";
"2 1 16950 18904 6014 XOR";
"2 1 6015 6014 6013 AND";
"2 1 6013 18904 18905 XOR";
"2 1 18968 18905 3778 XOR";
"2 1 19032 18905 6012 XOR";
"2 1 16951 18905 6011 XOR";
"2 1 6012 6011 6010 AND";
"2 1 6010 18905 18906 XOR";
"2 1 18969 18906 3777 XOR";
"2 1 16952 18906 6008 XOR";
"2 1 3779 16951 18779 XOR";
"2 1 3778 16952 18780 XOR";
"2 1 3777 16953 18781 XOR";
"2 1 3715 16637 19033 XOR";
"2 1 19033 18906 6009 XOR";
"2 1 6009 6008 6007 AND";
"2 1 6007 18906 18907 XOR";
"2 1 16953 18907 6005 XOR";
"2 1 19034 18907 6006 XOR";
"2 1 6006 6005 6004 AND";
"2 1 6004 18907 18908 XOR";
"2 1 18971 18908 3775 XOR";
"2 1 16954 18908 6002 XOR";
"2 1 18970 18907 3776 XOR";
"2 1 3776 16954 18782 XOR";
"2 1 3775 16955 18783 XOR";
"2 1 3710 16637 19038 XOR";
"2 1 3711 16637 19037 XOR";
"2 1 3713 16637 19035 XOR";
"2 1 19035 18908 6003 XOR";
"2 1 6003 6002 6001 AND";
"2 1 6001 18908 18909 XOR";
"2 1 18972 18909 3774 XOR";
"2 1 16955 18909 5999 XOR";
"2 1 3774 16956 18784 XOR";
"2 1 3712 16637 19036 XOR";
"2 1 19036 18909 6000 XOR";
"2 1 6000 5999 5998 AND";
"2 1 5998 18909 18910 XOR";
"2 1 18973 18910 3773 XOR";
"2 1 16956 18910 5996 XOR";
"2 1 19037 18910 5997 XOR";
"2 1 5997 5996 5995 AND";
"2 1 5995 18910 18911 XOR";
"2 1 18974 18911 3772 XOR";
"2 1 19038 18911 5994 XOR";
"2 1 16957 18911 5993 XOR";
"2 1 5994 5993 5992 AND";
"2 1 5992 18911 18912 XOR";
"2 1 18975 18912 3771 XOR";
"2 1 16958 18912 5990 XOR";
"2 1 3773 16957 18785 XOR";
"2 1 3772 16958 18786 XOR";
"2 1 3771 16959 18787 XOR";
"2 1 3709 16637 19039 XOR";
"2 1 19039 18912 5991 XOR";
"2 1 5991 5990 5989 AND";
"2 1 5989 18912 18913 XOR";
"2 1 16959 18913 5987 XOR";
"2 1 19040 18913 5988 XOR";
"2 1 5988 5987 5986 AND";
"2 1 5986 18913 18914 XOR";
"2 1 18977 18914 3769 XOR";
"2 1 16960 18914 5984 XOR";
"2 1 18976 18913 3770 XOR";
"2 1 3770 16960 18788 XOR";
"2 1 3769 16961 18789 XOR";
"2 1 3704 16637 19044 XOR";
"2 1 3705 16637 19043 XOR";
"2 1 3707 16637 19041 XOR";
"2 1 19041 18914 5985 XOR";
"2 1 5985 5984 5983 AND";
"2 1 5983 18914 18915 XOR";
"2 1 18978 18915 3768 XOR";
"2 1 16961 18915 5981 XOR";
"2 1 3768 16962 18790 XOR";
"2 1 3706 16637 19042 XOR";
"2 1 19042 18915 5982 XOR";
"2 1 5982 5981 5980 AND";
"2 1 5980 18915 18916 XOR";
"2 1 19043 18916 5979 XOR";
"2 1 18979 18916 3767 XOR";
"2 1 16962 18916 5978 XOR";
"2 1 5979 5978 5977 AND";
"2 1 5977 18916 18917 XOR";
"2 1 18980 18917 3766 XOR";
"2 1 19044 18917 5976 XOR";
"2 1 16963 18917 5975 XOR";
"2 1 5976 5975 5974 AND";
"2 1 5974 18917 18918 XOR";
"2 1 18981 18918 3765 XOR";
"2 1 16964 18918 5972 XOR";
"2 1 3767 16963 18791 XOR";
"2 1 3766 16964 18792 XOR";
"2 1 3765 16965 18793 XOR";
"2 1 3703 16637 19045 XOR";
"2 1 19045 18918 5973 XOR";
"2 1 5973 5972 5971 AND";
"2 1 5971 18918 18919 XOR";
"2 1 16965 18919 5969 XOR";
"2 1 19046 18919 5970 XOR";
"2 1 5970 5969 5968 AND";
"2 1 5968 18919 18920 XOR";
"2 1 18983 18920 3763 XOR";
"2 1 16966 18920 5966 XOR";
"2 1 18982 18919 3764 XOR";
"2 1 3764 16966 18794 XOR";
"2 1 3763 16967 18795 XOR";
"2 1 3698 16637 19050 XOR";
"2 1 3699 16637 19049 XOR";
"2 1 3701 16637 19047 XOR";
"2 1 19047 18920 5967 XOR";
"2 1 5967 5966 5965 AND";
"2 1 5965 18920 18921 XOR";
"2 1 18984 18921 3762 XOR";
"2 1 16967 18921 5963 XOR";
"2 1 3762 16968 18796 XOR";
"2 1 3700 16637 19048 XOR";
"2 1 19048 18921 5964 XOR";
"2 1 5964 5963 5962 AND";
"2 1 5962 18921 18922 XOR";
"2 1 18985 18922 3761 XOR";
"2 1 16968 18922 5960 XOR";
"2 1 19049 18922 5961 XOR";
"2 1 5961 5960 5959 AND";
"2 1 5959 18922 18923 XOR";
"2 1 18986 18923 3760 XOR";
"2 1 19050 18923 5958 XOR";
"2 1 3761 16969 18797 XOR";
"2 1 3760 16970 18798 XOR";
"2 1 3697 16637 19051 XOR";
"2 1 3692 16637 19056 XOR";
"2 1 3693 16637 19055 XOR";
"2 1 3695 16637 19053 XOR";
"2 1 3694 16637 19054 XOR";
"2 1 3691 16637 19057 XOR";
"2 1 3686 16637 19062 XOR";
"2 1 3687 16637 19061 XOR";
"2 1 3689 16637 19059 XOR";
"2 1 3688 16637 19060 XOR";
"2 1 3685 16637 19063 XOR";
"2 1 3680 16637 19068 XOR";
"2 1 3681 16637 19067 XOR";
"2 1 3683 16637 19065 XOR";
"2 1 3682 16637 19066 XOR";
"2 1 3679 16637 19069 XOR";
"2 1 3674 16637 19074 XOR";
"2 1 3675 16637 19073 XOR";
"2 1 3677 16637 19071 XOR";
"2 1 3676 16637 19072 XOR";
"2 1 3673 16637 19075 XOR";
"2 1 3668 16637 19080 XOR";
"2 1 3669 16637 19079 XOR";
"2 1 3671 16637 19077 XOR";
"2 1 3670 16637 19078 XOR";
"2 1 3667 16637 19081 XOR";
"2 1 3662 16637 19086 XOR";
"2 1 3663 16637 19085 XOR";
"2 1 3665 16637 19083 XOR";
"2 1 3664 16637 19084 XOR";
"2 1 3661 16637 19087 XOR";
"2 1 3660 16637 19088 XOR";
"2 1 16969 18923 5957 XOR";
"2 1 5958 5957 5956 AND";
"2 1 5956 18923 18924 XOR";
"2 1 19051 18924 5955 XOR";
"2 1 18987 18924 3759 XOR";
"2 1 3759 16971 18799 XOR";
"2 1 16970 18924 5954 XOR";
"2 1 5955 5954 5953 AND";
"2 1 5953 18924 18925 XOR";
"2 1 18988 18925 3758 XOR";
"2 1 3758 16972 18800 XOR";
"2 1 16971 18925 5951 XOR";
"2 1 19052 18925 5952 XOR";
"2 1 5952 5951 5950 AND";
"2 1 5950 18925 18926 XOR";
"2 1 18989 18926 3757 XOR";
"2 1 3757 16973 18801 XOR";
"2 1 16972 18926 5948 XOR";
"2 1 19053 18926 5949 XOR";
"2 1 5949 5948 5947 AND";
"2 1 5947 18926 18927 XOR";
"2 1 18990 18927 3756 XOR";
"2 1 3756 16974 18802 XOR";
"2 1 19054 18927 5946 XOR";
"2 1 16973 18927 5945 XOR";
"2 1 5946 5945 5944 AND";
"2 1 5944 18927 18928 XOR";
"2 1 19055 18928 5943 XOR";
"2 1 18991 18928 3755 XOR";
"2 1 3755 16975 18803 XOR";
"2 1 16974 18928 5942 XOR";
"2 1 5943 5942 5941 AND";
"2 1 5941 18928 18929 XOR";
"2 1 16975 18929 5939 XOR";
"2 1 18992 18929 3754 XOR";
"2 1 3754 16976 18804 XOR";
"2 1 19056 18929 5940 XOR";
"2 1 5940 5939 5938 AND";
"2 1 5938 18929 18930 XOR";
"2 1 16976 18930 5936 XOR";
"2 1 19057 18930 5937 XOR";
"2 1 5937 5936 5935 AND";
"2 1 18993 18930 3753 XOR";
"2 1 3753 16977 18805 XOR";
"2 1 5935 18930 18931 XOR";
"2 1 18994 18931 3752 XOR";
"2 1 3752 16978 18806 XOR";
"2 1 19058 18931 5934 XOR";
"2 1 16977 18931 5933 XOR";
"2 1 5934 5933 5932 AND";
"2 1 5932 18931 18932 XOR";
"2 1 18995 18932 3751 XOR";
"2 1 3751 16979 18807 XOR";
"2 1 16978 18932 5930 XOR";
"2 1 19059 18932 5931 XOR";
"2 1 5931 5930 5929 AND";
"2 1 5929 18932 18933 XOR";
"2 1 18996 18933 3750 XOR";
"2 1 3750 16980 18808 XOR";
"2 1 16979 18933 5927 XOR";
"2 1 19060 18933 5928 XOR";
"2 1 5928 5927 5926 AND";
"2 1 5926 18933 18934 XOR";
"2 1 19061 18934 5925 XOR";
"2 1 18997 18934 3749 XOR";
"2 1 3749 16981 18809 XOR";
"2 1 16980 18934 5924 XOR";
"2 1 5925 5924 5923 AND";
"2 1 5923 18934 18935 XOR";
"2 1 19062 18935 5922 XOR";
"2 1 18998 18935 3748 XOR";
"2 1 3748 16982 18810 XOR";
"2 1 16637 4535 17521 AND";
"2 1 16981 18935 5921 XOR";
"2 1 5922 5921 5920 AND";
"2 1 5920 18935 18936 XOR";
"2 1 19063 18936 5919 XOR";
"2 1 18999 18936 3747 XOR";
"2 1 3747 16983 18811 XOR";
"2 1 16982 18936 5918 XOR";
"2 1 5919 5918 5917 AND";
"2 1 5917 18936 18937 XOR";
"2 1 19000 18937 3746 XOR";
"2 1 3746 16984 18812 XOR";
"2 1 19064 18937 5916 XOR";
"2 1 16983 18937 5915 XOR";
"2 1 5916 5915 5914 AND";
"2 1 5914 18937 18938 XOR";
"2 1 19065 18938 5913 XOR";
"2 1 19001 18938 3745 XOR";
"2 1 3745 16985 18813 XOR";
"2 1 16984 18938 5912 XOR";
"2 1 5913 5912 5911 AND";
"2 1 5911 18938 18939 XOR";
"2 1 19066 18939 5910 XOR";
"2 1 16985 18939 5909 XOR";
"2 1 5910 5909 5908 AND";
"2 1 5908 18939 18940 XOR";
"2 1 19003 18940 3743 XOR";
"2 1 3743 16987 18815 XOR";
"2 1 16986 18940 5906 XOR";
"2 1 19067 18940 5907 XOR";
"2 1 5907 5906 5905 AND";
"2 1 5905 18940 18941 XOR";
"2 1 16987 18941 5903 XOR";
"2 1 19004 18941 3742 XOR";
"2 1 3742 16988 18816 XOR";
"2 1 19068 18941 5904 XOR";
"2 1 5904 5903 5902 AND";
"2 1 5902 18941 18942 XOR";
"2 1 19069 18942 5901 XOR";
"2 1 19005 18942 3741 XOR";
"2 1 3741 16989 18817 XOR";
"2 1 16988 18942 5900 XOR";
"2 1 5901 5900 5899 AND";
"2 1 5899 18942 18943 XOR";
"2 1 16989 18943 5897 XOR";
"2 1 19070 18943 5898 XOR";
"2 1 5898 5897 5896 AND";
"2 1 5896 18943 18944 XOR";
"2 1 16990 18944 5894 XOR";
"2 1 19071 18944 5895 XOR";
"2 1 5895 5894 5893 AND";
"2 1 5893 18944 18945 XOR";
"2 1 16991 18945 5891 XOR";
"2 1 19072 18945 5892 XOR";
"2 1 5892 5891 5890 AND";
"2 1 5890 18945 18946 XOR";
"2 1 19073 18946 5889 XOR";
"2 1 19008 18945 3738 XOR";
"2 1 3738 16992 18820 XOR";
"2 1 19009 18946 3737 XOR";
"2 1 3737 16993 18821 XOR";
"2 1 19007 18944 3739 XOR";
"2 1 3739 16991 18819 XOR";
"2 1 19002 18939 3744 XOR";
"2 1 3744 16986 18814 XOR";
"2 1 16992 18946 5888 XOR";
"2 1 5889 5888 5887 AND";
"2 1 5887 18946 18947 XOR";
"2 1 16993 18947 5885 XOR";
"2 1 19074 18947 5886 XOR";
"2 1 5886 5885 5884 AND";
"2 1 19010 18947 3736 XOR";
"2 1 3736 16994 18822 XOR";
"2 1 5884 18947 18948 XOR";
"2 1 16994 18948 5882 XOR";
"2 1 19011 18948 3735 XOR";
"2 1 3735 16995 18823 XOR";
"2 1 19075 18948 5883 XOR";
"2 1 5883 5882 5881 AND";
"2 1 5881 18948 18949 XOR";
"2 1 19012 18949 3734 XOR";
"2 1 19076 18949 5880 XOR";
"2 1 16995 18949 5879 XOR";
"2 1 3734 16996 18824 XOR";
"2 1 5880 5879 5878 AND";
"2 1 5878 18949 18950 XOR";
"2 1 19077 18950 5877 XOR";
"2 1 19013 18950 3733 XOR";
"2 1 3733 16997 18825 XOR";
"2 1 16996 18950 5876 XOR";
"2 1 5877 5876 5875 AND";
"2 1 5875 18950 18951 XOR";
"2 1 19078 18951 5874 XOR";
"2 1 16997 18951 5873 XOR";
"2 1 19014 18951 3732 XOR";
"2 1 3732 16998 18826 XOR";
"2 1 19006 18943 3740 XOR";
"2 1 3740 16990 18818 XOR";
"2 1 5874 5873 5872 AND";
"2 1 5872 18951 18952 XOR";
"2 1 16998 18952 5870 XOR";
"2 1 19079 18952 5871 XOR";
"2 1 5871 5870 5869 AND";
"2 1 5869 18952 18953 XOR";
"2 1 16999 18953 5867 XOR";
"2 1 19016 18953 3730 XOR";
"2 1 3730 17000 18828 XOR";
"2 1 19080 18953 5868 XOR";
"2 1 5868 5867 5866 AND";
"2 1 5866 18953 18954 XOR";
"2 1 17000 18954 5864 XOR";
"2 1 19017 18954 3729 XOR";
"2 1 3729 17001 18829 XOR";
"2 1 19015 18952 3731 XOR";
"2 1 3731 16999 18827 XOR";
"2 1 19081 18954 5865 XOR";
"2 1 5865 5864 5863 AND";
"2 1 5863 18954 18955 XOR";
"2 1 17001 18955 5861 XOR";
"2 1 19018 18955 3728 XOR";
"2 1 3728 17002 18830 XOR";
"2 1 19082 18955 5862 XOR";
"2 1 5862 5861 5860 AND";
"2 1 5860 18955 18956 XOR";
"2 1 19019 18956 3727 XOR";
"2 1 19083 18956 5859 XOR";
"2 1 17002 18956 5858 XOR";
"2 1 3727 17003 18831 XOR";
"2 1 5859 5858 5857 AND";
"2 1 5857 18956 18957 XOR";
"2 1 17003 18957 5855 XOR";
"2 1 19020 18957 3726 XOR";
"2 1 3726 17004 18832 XOR";
"2 1 19084 18957 5856 XOR";
"2 1 5856 5855 5854 AND";
"2 1 5854 18957 18958 XOR";
"2 1 19085 18958 5853 XOR";
"2 1 17004 18958 5852 XOR";
"2 1 19021 18958 3725 XOR";
"2 1 3725 17005 18833 XOR";
"2 1 5853 5852 5851 AND";
"2 1 5851 18958 18959 XOR";
"2 1 19086 18959 5850 XOR";
"2 1 17005 18959 5849 XOR";
"2 1 5850 5849 5848 AND";
"2 1 5848 18959 18960 XOR";
"2 1 17006 18960 5846 XOR";
"2 1 19022 18959 3724 XOR";
"2 1 3724 17006 18834 XOR";
"2 1 19023 18960 3723 XOR";
"2 1 3723 17007 18835 XOR";
"2 1 19087 18960 5847 XOR";
"2 1 5847 5846 5845 AND";
"2 1 5845 18960 18961 XOR";
"2 1 19024 18961 3722 XOR";
"2 1 19088 18961 5844 XOR";
"2 1 3722 17008 18836 XOR";
"2 1 17007 18961 5843 XOR";
"2 1 5844 5843 5842 AND";
"2 1 5842 18961 18962 XOR";
"2 1 19025 18962 3721 XOR";
"2 1 3721 17009 18837 XOR";
"2 1 17008 18962 5840 XOR";
"2 1 3659 16637 19089 XOR";
"2 1 19089 18962 5841 XOR";
"2 1 5841 5840 5839 AND";
"2 1 5839 18962 18963 XOR";
"2 1 19026 18963 186 XOR";
"1 1 186 16636 INV";
"2 1 3782 16636 18840 XOR";
"2 1 3776 16636 18846 XOR";
"2 1 3770 16636 18852 XOR";
"2 1 3764 16636 18858 XOR";
"2 1 3758 16636 18864 XOR";
"2 1 3752 16636 18870 XOR";
"2 1 3746 16636 18876 XOR";
"2 1 3740 16636 18882 XOR";
"2 1 3734 16636 18888 XOR";
"2 1 3728 16636 18894 XOR";
"2 1 16825 16636 18838 XOR";
"2 1 18838 16946 18712 AND";
"2 1 18775 18712 3845 XOR";
"2 1 16947 18712 5837 XOR";
"2 1 3845 16948 18587 XOR";
"2 1 3783 16636 18839 XOR";
"2 1 18839 18712 5838 XOR";
"2 1 5838 5837 5836 AND";
"2 1 5836 18712 18713 XOR";
"2 1 18776 18713 3844 XOR";
"2 1 16948 18713 5834 XOR";
"2 1 18840 18713 5835 XOR";
"2 1 5835 5834 5833 AND";
"2 1 5833 18713 18714 XOR";
"2 1 18777 18714 3843 XOR";
"2 1 16949 18714 5831 XOR";
"2 1 3844 16949 18588 XOR";
"2 1 3843 16950 18589 XOR";
"2 1 3778 16636 18844 XOR";
"2 1 3779 16636 18843 XOR";
"2 1 3781 16636 18841 XOR";
"2 1 18841 18714 5832 XOR";
"2 1 5832 5831 5830 AND";
"2 1 5830 18714 18715 XOR";
"2 1 18778 18715 3842 XOR";
"2 1 16950 18715 5828 XOR";
"2 1 3842 16951 18590 XOR";
"2 1 3780 16636 18842 XOR";
"2 1 18842 18715 5829 XOR";
"2 1 5829 5828 5827 AND";
"2 1 5827 18715 18716 XOR";
"2 1 18779 18716 3841 XOR";
"2 1 18843 18716 5826 XOR";
"2 1 3841 16952 18591 XOR";
"2 1 3777 16636 18845 XOR";
"2 1 3772 16636 18850 XOR";
"2 1 3773 16636 18849 XOR";
"2 1 3775 16636 18847 XOR";
"2 1 3774 16636 18848 XOR";
"2 1 3771 16636 18851 XOR";
"2 1 3766 16636 18856 XOR";
"2 1 3767 16636 18855 XOR";
"2 1 3769 16636 18853 XOR";
"2 1 3768 16636 18854 XOR";
"2 1 3765 16636 18857 XOR";
"2 1 3760 16636 18862 XOR";
"2 1 3761 16636 18861 XOR";
"2 1 3763 16636 18859 XOR";
"2 1 3762 16636 18860 XOR";
"2 1 3759 16636 18863 XOR";
"2 1 3754 16636 18868 XOR";
"2 1 3755 16636 18867 XOR";
"2 1 3757 16636 18865 XOR";
"2 1 3756 16636 18866 XOR";
"2 1 3753 16636 18869 XOR";
"2 1 3748 16636 18874 XOR";
"2 1 3749 16636 18873 XOR";
"2 1 3751 16636 18871 XOR";
"2 1 3750 16636 18872 XOR";
"2 1 3747 16636 18875 XOR";
"2 1 3742 16636 18880 XOR";
"2 1 3743 16636 18879 XOR";
"2 1 3745 16636 18877 XOR";
"2 1 3744 16636 18878 XOR";
"2 1 3741 16636 18881 XOR";
"2 1 3736 16636 18886 XOR";
"2 1 3737 16636 18885 XOR";
"2 1 3739 16636 18883 XOR";
"2 1 3738 16636 18884 XOR";
"2 1 3735 16636 18887 XOR";
"2 1 3730 16636 18892 XOR";
"2 1 3731 16636 18891 XOR";
"2 1 3733 16636 18889 XOR";
"2 1 3732 16636 18890 XOR";
"2 1 3729 16636 18893 XOR";
"2 1 3724 16636 18898 XOR";
"2 1 3725 16636 18897 XOR";
"2 1 3727 16636 18895 XOR";
"2 1 3726 16636 18896 XOR";
"2 1 3723 16636 18899 XOR";
"2 1 16636 4535 17520 AND";
"2 1 16951 18716 5825 XOR";
"2 1 5826 5825 5824 AND";
"2 1 5824 18716 18717 XOR";
"2 1 18844 18717 5823 XOR";
"2 1 18780 18717 3840 XOR";
"2 1 16952 18717 5822 XOR";
"2 1 5823 5822 5821 AND";
"2 1 5821 18717 18718 XOR";
"2 1 16953 18718 5819 XOR";
"2 1 18845 18718 5820 XOR";
"2 1 5820 5819 5818 AND";
"2 1 5818 18718 18719 XOR";
"2 1 18782 18719 3838 XOR";
"2 1 16954 18719 5816 XOR";
"2 1 18846 18719 5817 XOR";
"2 1 5817 5816 5815 AND";
"2 1 18781 18718 3839 XOR";
"2 1 5815 18719 18720 XOR";
"2 1 18783 18720 3837 XOR";
"2 1 18847 18720 5814 XOR";
"2 1 16955 18720 5813 XOR";
"2 1 5814 5813 5812 AND";
"2 1 5812 18720 18721 XOR";
"2 1 18784 18721 3836 XOR";
"2 1 16956 18721 5810 XOR";
"2 1 18848 18721 5811 XOR";
"2 1 5811 5810 5809 AND";
"2 1 5809 18721 18722 XOR";
"2 1 18785 18722 3835 XOR";
"2 1 18849 18722 5808 XOR";
"2 1 3840 16953 18592 XOR";
"2 1 3839 16954 18593 XOR";
"2 1 3838 16955 18594 XOR";
"2 1 3837 16956 18595 XOR";
"2 1 3836 16957 18596 XOR";
"2 1 3835 16958 18597 XOR";
"2 1 16957 18722 5807 XOR";
"2 1 5808 5807 5806 AND";
"2 1 5806 18722 18723 XOR";
"2 1 16958 18723 5804 XOR";
"2 1 18850 18723 5805 XOR";
"2 1 5805 5804 5803 AND";
"2 1 18786 18723 3834 XOR";
"2 1 3834 16959 18598 XOR";
"2 1 5803 18723 18724 XOR";
"2 1 18787 18724 3833 XOR";
"2 1 18851 18724 5802 XOR";
"2 1 16959 18724 5801 XOR";
"2 1 5802 5801 5800 AND";
"2 1 5800 18724 18725 XOR";
"2 1 18852 18725 5799 XOR";
"2 1 18788 18725 3832 XOR";
"2 1 3833 16960 18599 XOR";
"2 1 3832 16961 18600 XOR";
"2 1 16960 18725 5798 XOR";
"2 1 5799 5798 5797 AND";
"2 1 5797 18725 18726 XOR";
"2 1 18853 18726 5796 XOR";
"2 1 16961 18726 5795 XOR";
"2 1 5796 5795 5794 AND";
"2 1 5794 18726 18727 XOR";
"2 1 16962 18727 5792 XOR";
"2 1 18854 18727 5793 XOR";
"2 1 18790 18727 3830 XOR";
"2 1 18789 18726 3831 XOR";
"2 1 5793 5792 5791 AND";
"2 1 5791 18727 18728 XOR";
"2 1 16963 18728 5789 XOR";
"2 1 18791 18728 3829 XOR";
"2 1 18855 18728 5790 XOR";
"2 1 5790 5789 5788 AND";
"2 1 3831 16962 18601 XOR";
"2 1 3830 16963 18602 XOR";
"2 1 3829 16964 18603 XOR";
"2 1 5788 18728 18729 XOR";
"2 1 16964 18729 5786 XOR";
"2 1 18792 18729 3828 XOR";
"2 1 18856 18729 5787 XOR";
"2 1 5787 5786 5785 AND";
"2 1 5785 18729 18730 XOR";
"2 1 18793 18730 3827 XOR";
"2 1 16965 18730 5783 XOR";
"2 1 18857 18730 5784 XOR";
"2 1 5784 5783 5782 AND";
"2 1 5782 18730 18731 XOR";
"2 1 18794 18731 3826 XOR";
"2 1 16966 18731 5780 XOR";
"2 1 18858 18731 5781 XOR";
"2 1 5781 5780 5779 AND";
"2 1 5779 18731 18732 XOR";
"2 1 18795 18732 3825 XOR";
"2 1 18859 18732 5778 XOR";
"2 1 16967 18732 5777 XOR";
"2 1 3828 16965 18604 XOR";
"2 1 3827 16966 18605 XOR";
"2 1 3826 16967 18606 XOR";
"2 1 3825 16968 18607 XOR";
"2 1 5778 5777 5776 AND";
"2 1 5776 18732 18733 XOR";
"2 1 16968 18733 5774 XOR";
"2 1 18796 18733 3824 XOR";
"2 1 3824 16969 18608 XOR";
"2 1 18860 18733 5775 XOR";
"2 1 5775 5774 5773 AND";
"2 1 5773 18733 18734 XOR";
"2 1 16969 18734 5771 XOR";
"2 1 18797 18734 3823 XOR";
"2 1 18861 18734 5772 XOR";
"2 1 5772 5771 5770 AND";
"2 1 5770 18734 18735 XOR";
"2 1 18798 18735 3822 XOR";
"2 1 18862 18735 5769 XOR";
"2 1 16970 18735 5768 XOR";
"2 1 5769 5768 5767 AND";
"2 1 5767 18735 18736 XOR";
"2 1 18863 18736 5766 XOR";
"2 1 16971 18736 5765 XOR";
"2 1 5766 5765 5764 AND";
"2 1 5764 18736 18737 XOR";
"2 1 18800 18737 3820 XOR";
"2 1 16972 18737 5762 XOR";
"2 1 18864 18737 5763 XOR";
"2 1 5763 5762 5761 AND";
"2 1 5761 18737 18738 XOR";
"2 1 18801 18738 3819 XOR";
"2 1 16973 18738 5759 XOR";
"2 1 3823 16970 18609 XOR";
"2 1 3822 16971 18610 XOR";
"2 1 3820 16973 18612 XOR";
"2 1 3819 16974 18613 XOR";
"2 1 18865 18738 5760 XOR";
"2 1 5760 5759 5758 AND";
"2 1 18799 18736 3821 XOR";
"2 1 3821 16972 18611 XOR";
"2 1 5758 18738 18739 XOR";
"2 1 16974 18739 5756 XOR";
"2 1 18866 18739 5757 XOR";
"2 1 18802 18739 3818 XOR";
"2 1 3818 16975 18614 XOR";
"2 1 5757 5756 5755 AND";
"2 1 5755 18739 18740 XOR";
"2 1 18803 18740 3817 XOR";
"2 1 18867 18740 5754 XOR";
"2 1 3817 16976 18615 XOR";
"2 1 16975 18740 5753 XOR";
"2 1 5754 5753 5752 AND";
"2 1 5752 18740 18741 XOR";
"2 1 18804 18741 3816 XOR";
"2 1 18868 18741 5751 XOR";
"2 1 16976 18741 5750 XOR";
"2 1 5751 5750 5749 AND";
"2 1 5749 18741 18742 XOR";
"2 1 18869 18742 5748 XOR";
"2 1 16977 18742 5747 XOR";
"2 1 5748 5747 5746 AND";
"2 1 5746 18742 18743 XOR";
"2 1 18806 18743 3814 XOR";
"2 1 16978 18743 5744 XOR";
"2 1 18870 18743 5745 XOR";
"2 1 5745 5744 5743 AND";
"2 1 5743 18743 18744 XOR";
"2 1 18807 18744 3813 XOR";
"2 1 18871 18744 5742 XOR";
"2 1 16979 18744 5741 XOR";
"2 1 3816 16977 18616 XOR";
"2 1 3814 16979 18618 XOR";
"2 1 3813 16980 18619 XOR";
"2 1 5742 5741 5740 AND";
"2 1 5740 18744 18745 XOR";
"2 1 18808 18745 3812 XOR";
"2 1 3812 16981 18620 XOR";
"2 1 16980 18745 5738 XOR";
"2 1 18805 18742 3815 XOR";
"2 1 3815 16978 18617 XOR";
"2 1 18872 18745 5739 XOR";
"2 1 5739 5738 5737 AND";
"2 1 5737 18745 18746 XOR";
"2 1 16981 18746 5735 XOR";
"2 1 18809 18746 3811 XOR";
"2 1 3811 16982 18621 XOR";
"2 1 18873 18746 5736 XOR";
"2 1 5736 5735 5734 AND";
"2 1 5734 18746 18747 XOR";
"2 1 18810 18747 3810 XOR";
"2 1 16982 18747 5732 XOR";
"2 1 18874 18747 5733 XOR";
"2 1 3810 16983 18622 XOR";
"2 1 5733 5732 5731 AND";
"2 1 5731 18747 18748 XOR";
"2 1 18811 18748 3809 XOR";
"2 1 16983 18748 5729 XOR";
"2 1 3809 16984 18623 XOR";
"2 1 18875 18748 5730 XOR";
"2 1 5730 5729 5728 AND";
"2 1 5728 18748 18749 XOR";
"2 1 18812 18749 3808 XOR";
"2 1 18876 18749 5727 XOR";
"2 1 3808 16985 18624 XOR";
"2 1 16984 18749 5726 XOR";
"2 1 5727 5726 5725 AND";
"2 1 5725 18749 18750 XOR";
"2 1 18877 18750 5724 XOR";
"2 1 16985 18750 5723 XOR";
"2 1 18813 18750 3807 XOR";
"2 1 3807 16986 18625 XOR";
"2 1 5724 5723 5722 AND";
"2 1 5722 18750 18751 XOR";
"2 1 18878 18751 5721 XOR";
"2 1 16986 18751 5720 XOR";
"2 1 5721 5720 5719 AND";
"2 1 5719 18751 18752 XOR";
"2 1 16987 18752 5717 XOR";
"2 1 18815 18752 3805 XOR";
"2 1 18879 18752 5718 XOR";
"2 1 5718 5717 5716 AND";
"2 1 5716 18752 18753 XOR";
"2 1 18816 18753 3804 XOR";
"2 1 18814 18751 3806 XOR";
"2 1 18880 18753 5715 XOR";
"2 1 16988 18753 5714 XOR";
"2 1 5715 5714 5713 AND";
"2 1 5713 18753 18754 XOR";
"2 1 18817 18754 3803 XOR";
"2 1 16989 18754 5711 XOR";
"2 1 18881 18754 5712 XOR";
"2 1 5712 5711 5710 AND";
"2 1 5710 18754 18755 XOR";
"2 1 16990 18755 5708 XOR";
"2 1 3806 16987 18626 XOR";
"2 1 3805 16988 18627 XOR";
"2 1 3804 16989 18628 XOR";
"2 1 3803 16990 18629 XOR";
"2 1 18818 18755 3802 XOR";
"2 1 3802 16991 18630 XOR";
"2 1 18882 18755 5709 XOR";
"2 1 5709 5708 5707 AND";
"2 1 5707 18755 18756 XOR";
"2 1 16991 18756 5705 XOR";
"2 1 18819 18756 3801 XOR";
"2 1 18883 18756 5706 XOR";
"2 1 5706 5705 5704 AND";
"2 1 3801 16992 18631 XOR";
"2 1 5704 18756 18757 XOR";
"2 1 18884 18757 5703 XOR";
"2 1 16992 18757 5702 XOR";
"2 1 5703 5702 5701 AND";
"2 1 5701 18757 18758 XOR";
"2 1 16993 18758 5699 XOR";
"2 1 18821 18758 3799 XOR";
"2 1 18885 18758 5700 XOR";
"2 1 5700 5699 5698 AND";
"2 1 5698 18758 18759 XOR";
"2 1 18886 18759 5697 XOR";
"2 1 18822 18759 3798 XOR";
"2 1 3799 16994 18633 XOR";
"2 1 3798 16995 18634 XOR";
"2 1 16994 18759 5696 XOR";
"2 1 5697 5696 5695 AND";
"2 1 5695 18759 18760 XOR";
"2 1 16995 18760 5693 XOR";
"2 1 18823 18760 3797 XOR";
"2 1 18887 18760 5694 XOR";
"2 1 5694 5693 5692 AND";
"2 1 5692 18760 18761 XOR";
"2 1 16996 18761 5690 XOR";
"2 1 18888 18761 5691 XOR";
"2 1 5691 5690 5689 AND";
"2 1 5689 18761 18762 XOR";
"2 1 16997 18762 5687 XOR";
"2 1 18825 18762 3795 XOR";
"2 1 3797 16996 18635 XOR";
"2 1 3795 16998 18637 XOR";
"2 1 18820 18757 3800 XOR";
"2 1 3800 16993 18632 XOR";
"2 1 18824 18761 3796 XOR";
"2 1 3796 16997 18636 XOR";
"2 1 18889 18762 5688 XOR";
"2 1 5688 5687 5686 AND";
"2 1 5686 18762 18763 XOR";
"2 1 18826 18763 3794 XOR";
"2 1 18890 18763 5685 XOR";
"2 1 3794 16999 18638 XOR";
"2 1 16998 18763 5684 XOR";
"2 1 5685 5684 5683 AND";
"2 1 5683 18763 18764 XOR";
"2 1 16999 18764 5681 XOR";
"2 1 18891 18764 5682 XOR";
"2 1 5682 5681 5680 AND";
"2 1 18827 18764 3793 XOR";
"2 1 5680 18764 18765 XOR";
"2 1 18892 18765 5679 XOR";
"2 1 18828 18765 3792 XOR";
"2 1 17000 18765 5678 XOR";
"2 1 5679 5678 5677 AND";
"2 1 3793 17000 18639 XOR";
"2 1 3792 17001 18640 XOR";
"2 1 5677 18765 18766 XOR";
"2 1 17001 18766 5675 XOR";
"2 1 18893 18766 5676 XOR";
"2 1 5676 5675 5674 AND";
"2 1 5674 18766 18767 XOR";
"2 1 18830 18767 3790 XOR";
"2 1 17002 18767 5672 XOR";
"2 1 3790 17003 18642 XOR";
"2 1 18894 18767 5673 XOR";
"2 1 5673 5672 5671 AND";
"2 1 5671 18767 18768 XOR";
"2 1 18831 18768 3789 XOR";
"2 1 17003 18768 5669 XOR";
"2 1 18895 18768 5670 XOR";
"2 1 5670 5669 5668 AND";
"2 1 5668 18768 18769 XOR";
"2 1 18832 18769 3788 XOR";
"2 1 17004 18769 5666 XOR";
"2 1 18896 18769 5667 XOR";
"2 1 5667 5666 5665 AND";
"2 1 5665 18769 18770 XOR";
"2 1 17005 18770 5663 XOR";
"2 1 18833 18770 3787 XOR";
"2 1 3789 17004 18643 XOR";
"2 1 3788 17005 18644 XOR";
"2 1 3787 17006 18645 XOR";
"2 1 18897 18770 5664 XOR";
"2 1 5664 5663 5662 AND";
"2 1 5662 18770 18771 XOR";
"2 1 18834 18771 3786 XOR";
"2 1 18898 18771 5661 XOR";
"2 1 17006 18771 5660 XOR";
"2 1 3786 17007 18646 XOR";
"2 1 5661 5660 5659 AND";
"2 1 5659 18771 18772 XOR";
"2 1 18899 18772 5658 XOR";
"2 1 17007 18772 5657 XOR";
"2 1 5658 5657 5656 AND";
"2 1 5656 18772 18773 XOR";
"2 1 18835 18772 3785 XOR";
"2 1 3785 17008 18647 XOR";
"2 1 17008 18773 5654 XOR";
"2 1 18836 18773 3784 XOR";
"2 1 3784 17009 18648 XOR";
"2 1 18829 18766 3791 XOR";
"2 1 3791 17002 18641 XOR";
"2 1 3722 16636 18900 XOR";
"2 1 18900 18773 5655 XOR";
"2 1 5655 5654 5653 AND";
"2 1 5653 18773 18774 XOR";
"2 1 18837 18774 187 XOR";
"1 1 187 16635 INV";
"2 1 3845 16635 18651 XOR";
"2 1 3839 16635 18657 XOR";
"2 1 3833 16635 18663 XOR";
"2 1 3827 16635 18669 XOR";
"2 1 3821 16635 18675 XOR";
"2 1 3815 16635 18681 XOR";
"2 1 3809 16635 18687 XOR";
"2 1 3803 16635 18693 XOR";
"2 1 3797 16635 18699 XOR";
"2 1 3791 16635 18705 XOR";
"2 1 16824 16635 18649 XOR";
"2 1 3846 16635 18650 XOR";
"2 1 3841 16635 18655 XOR";
"2 1 3842 16635 18654 XOR";
"2 1 3844 16635 18652 XOR";
"2 1 3843 16635 18653 XOR";
"2 1 3840 16635 18656 XOR";
"2 1 3835 16635 18661 XOR";
"2 1 3836 16635 18660 XOR";
"2 1 3838 16635 18658 XOR";
"2 1 3837 16635 18659 XOR";
"2 1 3834 16635 18662 XOR";
"2 1 3829 16635 18667 XOR";
"2 1 3830 16635 18666 XOR";
"2 1 3832 16635 18664 XOR";
"2 1 3831 16635 18665 XOR";
"2 1 3828 16635 18668 XOR";
"2 1 3823 16635 18673 XOR";
"2 1 3824 16635 18672 XOR";
"2 1 3826 16635 18670 XOR";
"2 1 3825 16635 18671 XOR";
"2 1 3822 16635 18674 XOR";
"2 1 3817 16635 18679 XOR";
"2 1 3818 16635 18678 XOR";
"2 1 3820 16635 18676 XOR";
"2 1 3819 16635 18677 XOR";
"2 1 3816 16635 18680 XOR";
"2 1 3811 16635 18685 XOR";
"2 1 3812 16635 18684 XOR";
"2 1 3814 16635 18682 XOR";
"2 1 3813 16635 18683 XOR";
"2 1 3810 16635 18686 XOR";
"2 1 3805 16635 18691 XOR";
"2 1 3806 16635 18690 XOR";
"2 1 3808 16635 18688 XOR";
"2 1 3807 16635 18689 XOR";
"2 1 3804 16635 18692 XOR";
"2 1 3799 16635 18697 XOR";
"2 1 3800 16635 18696 XOR";
"2 1 3802 16635 18694 XOR";
"2 1 3801 16635 18695 XOR";
"2 1 3798 16635 18698 XOR";
"2 1 3793 16635 18703 XOR";
"2 1 3794 16635 18702 XOR";
"2 1 3796 16635 18700 XOR";
"2 1 3795 16635 18701 XOR";
"2 1 3792 16635 18704 XOR";
"2 1 3787 16635 18709 XOR";
"2 1 3788 16635 18708 XOR";
"2 1 3790 16635 18706 XOR";
"2 1 3789 16635 18707 XOR";
"2 1 3786 16635 18710 XOR";
"2 1 3785 16635 18711 XOR";
"2 1 16635 4535 17519 AND";
"2 1 18649 16946 18523 AND";
"2 1 18586 18523 3908 XOR";
"2 1 16947 18523 5651 XOR";
"2 1 18650 18523 5652 XOR";
"2 1 5652 5651 5650 AND";
"2 1 5650 18523 18524 XOR";
"2 1 18587 18524 3907 XOR";
"2 1 18651 18524 5649 XOR";
"2 1 16948 18524 5648 XOR";
"2 1 5649 5648 5647 AND";
"2 1 5647 18524 18525 XOR";
"2 1 18588 18525 3906 XOR";
"2 1 16949 18525 5645 XOR";
"2 1 18652 18525 5646 XOR";
"2 1 5646 5645 5644 AND";
"2 1 5644 18525 18526 XOR";
"2 1 18589 18526 3905 XOR";
"2 1 18653 18526 5643 XOR";
"2 1 16950 18526 5642 XOR";
"2 1 5643 5642 5641 AND";
"2 1 5641 18526 18527 XOR";
"2 1 18654 18527 5640 XOR";
"2 1 18590 18527 3904 XOR";
"2 1 16951 18527 5639 XOR";
"2 1 5640 5639 5638 AND";
"2 1 5638 18527 18528 XOR";
"2 1 16952 18528 5636 XOR";
"2 1 18655 18528 5637 XOR";
"2 1 5637 5636 5635 AND";
"2 1 5635 18528 18529 XOR";
"2 1 18592 18529 3902 XOR";
"2 1 16953 18529 5633 XOR";
"2 1 18656 18529 5634 XOR";
"2 1 5634 5633 5632 AND";
"2 1 18591 18528 3903 XOR";
"2 1 5632 18529 18530 XOR";
"2 1 18593 18530 3901 XOR";
"2 1 18657 18530 5631 XOR";
"2 1 16954 18530 5630 XOR";
"2 1 5631 5630 5629 AND";
"2 1 5629 18530 18531 XOR";
"2 1 18594 18531 3900 XOR";
"2 1 16955 18531 5627 XOR";
"2 1 18658 18531 5628 XOR";
"2 1 5628 5627 5626 AND";
"2 1 5626 18531 18532 XOR";
"2 1 18595 18532 3899 XOR";
"2 1 18659 18532 5625 XOR";
"2 1 16956 18532 5624 XOR";
"2 1 5625 5624 5623 AND";
"2 1 5623 18532 18533 XOR";
"2 1 18660 18533 5622 XOR";
"2 1 18596 18533 3898 XOR";
"2 1 16957 18533 5621 XOR";
"2 1 5622 5621 5620 AND";
"2 1 5620 18533 18534 XOR";
"2 1 16958 18534 5618 XOR";
"2 1 18661 18534 5619 XOR";
"2 1 5619 5618 5617 AND";
"2 1 5617 18534 18535 XOR";
"2 1 18598 18535 3896 XOR";
"2 1 16959 18535 5615 XOR";
"2 1 18662 18535 5616 XOR";
"2 1 5616 5615 5614 AND";
"2 1 18597 18534 3897 XOR";
"2 1 3908 16948 18398 XOR";
"2 1 3907 16949 18399 XOR";
"2 1 3906 16950 18400 XOR";
"2 1 3905 16951 18401 XOR";
"2 1 3904 16952 18402 XOR";
"2 1 3903 16953 18403 XOR";
"2 1 3902 16954 18404 XOR";
"2 1 3901 16955 18405 XOR";
"2 1 3900 16956 18406 XOR";
"2 1 3899 16957 18407 XOR";
"2 1 3898 16958 18408 XOR";
"2 1 3897 16959 18409 XOR";
"2 1 3896 16960 18410 XOR";
"2 1 5614 18535 18536 XOR";
"2 1 18599 18536 3895 XOR";
"2 1 18663 18536 5613 XOR";
"2 1 16960 18536 5612 XOR";
"2 1 3895 16961 18411 XOR";
"2 1 5613 5612 5611 AND";
"2 1 5611 18536 18537 XOR";
"2 1 18664 18537 5610 XOR";
"2 1 18600 18537 3894 XOR";
"2 1 16961 18537 5609 XOR";
"2 1 5610 5609 5608 AND";
"2 1 5608 18537 18538 XOR";
"2 1 16962 18538 5606 XOR";
"2 1 18665 18538 5607 XOR";
"2 1 5607 5606 5605 AND";
"2 1 5605 18538 18539 XOR";
"2 1 16963 18539 5603 XOR";
"2 1 18666 18539 5604 XOR";
"2 1 5604 5603 5602 AND";
"2 1 18602 18539 3892 XOR";
"2 1 3894 16962 18412 XOR";
"2 1 3892 16964 18414 XOR";
"2 1 5602 18539 18540 XOR";
"2 1 16964 18540 5600 XOR";
"2 1 18603 18540 3891 XOR";
"2 1 18667 18540 5601 XOR";
"2 1 5601 5600 5599 AND";
"2 1 5599 18540 18541 XOR";
"2 1 16965 18541 5597 XOR";
"2 1 18604 18541 3890 XOR";
"2 1 18668 18541 5598 XOR";
"2 1 5598 5597 5596 AND";
"2 1 3891 16965 18415 XOR";
"2 1 3890 16966 18416 XOR";
"2 1 5596 18541 18542 XOR";
"2 1 18605 18542 3889 XOR";
"2 1 18669 18542 5595 XOR";
"2 1 16966 18542 5594 XOR";
"2 1 3889 16967 18417 XOR";
"2 1 5595 5594 5593 AND";
"2 1 5593 18542 18543 XOR";
"2 1 16967 18543 5591 XOR";
"2 1 18670 18543 5592 XOR";
"2 1 18606 18543 3888 XOR";
"2 1 5592 5591 5590 AND";
"2 1 5590 18543 18544 XOR";
"2 1 18607 18544 3887 XOR";
"2 1 18671 18544 5589 XOR";
"2 1 3888 16968 18418 XOR";
"2 1 3887 16969 18419 XOR";
"2 1 16968 18544 5588 XOR";
"2 1 5589 5588 5587 AND";
"2 1 5587 18544 18545 XOR";
"2 1 18608 18545 3886 XOR";
"2 1 16969 18545 5585 XOR";
"2 1 18672 18545 5586 XOR";
"2 1 5586 5585 5584 AND";
"2 1 5584 18545 18546 XOR";
"2 1 18609 18546 3885 XOR";
"2 1 16970 18546 5582 XOR";
"2 1 18673 18546 5583 XOR";
"2 1 5583 5582 5581 AND";
"2 1 3886 16970 18420 XOR";
"2 1 3885 16971 18421 XOR";
"2 1 5581 18546 18547 XOR";
"2 1 18674 18547 5580 XOR";
"2 1 18610 18547 3884 XOR";
"2 1 16971 18547 5579 XOR";
"2 1 3884 16972 18422 XOR";
"2 1 5580 5579 5578 AND";
"2 1 5578 18547 18548 XOR";
"2 1 16972 18548 5576 XOR";
"2 1 18611 18548 3883 XOR";
"2 1 18675 18548 5577 XOR";
"2 1 5577 5576 5575 AND";
"2 1 5575 18548 18549 XOR";
"2 1 18612 18549 3882 XOR";
"2 1 16973 18549 5573 XOR";
"2 1 3883 16973 18423 XOR";
"2 1 3882 16974 18424 XOR";
"2 1 18601 18538 3893 XOR";
"2 1 3893 16963 18413 XOR";
"2 1 18676 18549 5574 XOR";
"2 1 5574 5573 5572 AND";
"2 1 5572 18549 18550 XOR";
"2 1 16974 18550 5570 XOR";
"2 1 18677 18550 5571 XOR";
"2 1 5571 5570 5569 AND";
"2 1 5569 18550 18551 XOR";
"2 1 18678 18551 5568 XOR";
"2 1 16975 18551 5567 XOR";
"2 1 5568 5567 5566 AND";
"2 1 18614 18551 3880 XOR";
"2 1 5566 18551 18552 XOR";
"2 1 18679 18552 5565 XOR";
"2 1 18615 18552 3879 XOR";
"2 1 16976 18552 5564 XOR";
"2 1 5565 5564 5563 AND";
"2 1 5563 18552 18553 XOR";
"2 1 18616 18553 3878 XOR";
"2 1 18680 18553 5562 XOR";
"2 1 16977 18553 5561 XOR";
"2 1 3880 16976 18426 XOR";
"2 1 3879 16977 18427 XOR";
"2 1 3878 16978 18428 XOR";
"2 1 18613 18550 3881 XOR";
"2 1 3881 16975 18425 XOR";
"2 1 5562 5561 5560 AND";
"2 1 5560 18553 18554 XOR";
"2 1 16978 18554 5558 XOR";
"2 1 18617 18554 3877 XOR";
"2 1 3877 16979 18429 XOR";
"2 1 18681 18554 5559 XOR";
"2 1 5559 5558 5557 AND";
"2 1 5557 18554 18555 XOR";
"2 1 16979 18555 5555 XOR";
"2 1 18618 18555 3876 XOR";
"2 1 3876 16980 18430 XOR";
"2 1 18682 18555 5556 XOR";
"2 1 5556 5555 5554 AND";
"2 1 5554 18555 18556 XOR";
"2 1 18619 18556 3875 XOR";
"2 1 16980 18556 5552 XOR";
"2 1 18683 18556 5553 XOR";
"2 1 5553 5552 5551 AND";
"2 1 5551 18556 18557 XOR";
"2 1 16981 18557 5549 XOR";
"2 1 18684 18557 5550 XOR";
"2 1 5550 5549 5548 AND";
"2 1 18620 18557 3874 XOR";
"2 1 3875 16981 18431 XOR";
"2 1 3874 16982 18432 XOR";
"2 1 5548 18557 18558 XOR";
"2 1 18621 18558 3873 XOR";
"2 1 18685 18558 5547 XOR";
"2 1 3873 16983 18433 XOR";
"2 1 16982 18558 5546 XOR";
"2 1 5547 5546 5545 AND";
"2 1 5545 18558 18559 XOR";
"2 1 18686 18559 5544 XOR";
"2 1 16983 18559 5543 XOR";
"2 1 5544 5543 5542 AND";
"2 1 5542 18559 18560 XOR";
"2 1 18687 18560 5541 XOR";
"2 1 16984 18560 5540 XOR";
"2 1 5541 5540 5539 AND";
"2 1 5539 18560 18561 XOR";
"2 1 16985 18561 5537 XOR";
"2 1 18688 18561 5538 XOR";
"2 1 18623 18560 3871 XOR";
"2 1 5538 5537 5536 AND";
"2 1 5536 18561 18562 XOR";
"2 1 16986 18562 5534 XOR";
"2 1 18625 18562 3869 XOR";
"2 1 18624 18561 3870 XOR";
"2 1 18689 18562 5535 XOR";
"2 1 5535 5534 5533 AND";
"2 1 5533 18562 18563 XOR";
"2 1 16987 18563 5531 XOR";
"2 1 18690 18563 5532 XOR";
"2 1 5532 5531 5530 AND";
"2 1 18626 18563 3868 XOR";
"2 1 3871 16985 18435 XOR";
"2 1 3870 16986 18436 XOR";
"2 1 3869 16987 18437 XOR";
"2 1 3868 16988 18438 XOR";
"2 1 18622 18559 3872 XOR";
"2 1 3872 16984 18434 XOR";
"2 1 5530 18563 18564 XOR";
"2 1 18627 18564 3867 XOR";
"2 1 3867 16989 18439 XOR";
"2 1 18691 18564 5529 XOR";
"2 1 16988 18564 5528 XOR";
"2 1 5529 5528 5527 AND";
"2 1 5527 18564 18565 XOR";
"2 1 18692 18565 5526 XOR";
"2 1 18628 18565 3866 XOR";
"2 1 3866 16990 18440 XOR";
"2 1 16989 18565 5525 XOR";
"2 1 5526 5525 5524 AND";
"2 1 5524 18565 18566 XOR";
"2 1 18693 18566 5523 XOR";
"2 1 16990 18566 5522 XOR";
"2 1 5523 5522 5521 AND";
"2 1 5521 18566 18567 XOR";
"2 1 18694 18567 5520 XOR";
"2 1 16991 18567 5519 XOR";
"2 1 5520 5519 5518 AND";
"2 1 5518 18567 18568 XOR";
"2 1 16992 18568 5516 XOR";
"2 1 18695 18568 5517 XOR";
"2 1 5517 5516 5515 AND";
"2 1 5515 18568 18569 XOR";
"2 1 18631 18568 3863 XOR";
"2 1 18696 18569 5514 XOR";
"2 1 18632 18569 3862 XOR";
"2 1 16993 18569 5513 XOR";
"2 1 5514 5513 5512 AND";
"2 1 5512 18569 18570 XOR";
"2 1 18697 18570 5511 XOR";
"2 1 18633 18570 3861 XOR";
"2 1 3863 16993 18443 XOR";
"2 1 3862 16994 18444 XOR";
"2 1 3861 16995 18445 XOR";
"2 1 18630 18567 3864 XOR";
"2 1 3864 16992 18442 XOR";
"2 1 18629 18566 3865 XOR";
"2 1 3865 16991 18441 XOR";
"2 1 16994 18570 5510 XOR";
"2 1 5511 5510 5509 AND";
"2 1 5509 18570 18571 XOR";
"2 1 16995 18571 5507 XOR";
"2 1 18698 18571 5508 XOR";
"2 1 5508 5507 5506 AND";
"2 1 5506 18571 18572 XOR";
"2 1 18699 18572 5505 XOR";
"2 1 18635 18572 3859 XOR";
"2 1 3859 16997 18447 XOR";
"2 1 16996 18572 5504 XOR";
"2 1 5505 5504 5503 AND";
"2 1 5503 18572 18573 XOR";
"2 1 18636 18573 3858 XOR";
"2 1 18700 18573 5502 XOR";
"2 1 16997 18573 5501 XOR";
"2 1 5502 5501 5500 AND";
"2 1 5500 18573 18574 XOR";
"2 1 16998 18574 5498 XOR";
"2 1 18701 18574 5499 XOR";
"2 1 18637 18574 3857 XOR";
"2 1 5499 5498 5497 AND";
"2 1 5497 18574 18575 XOR";
"2 1 18638 18575 3856 XOR";
"2 1 16999 18575 5495 XOR";
"2 1 3858 16998 18448 XOR";
"2 1 3857 16999 18449 XOR";
"2 1 3856 17000 18450 XOR";
"2 1 18702 18575 5496 XOR";
"2 1 5496 5495 5494 AND";
"2 1 5494 18575 18576 XOR";
"2 1 17000 18576 5492 XOR";
"2 1 18703 18576 5493 XOR";
"2 1 5493 5492 5491 AND";
"2 1 5491 18576 18577 XOR";
"2 1 18640 18577 3854 XOR";
"2 1 17001 18577 5489 XOR";
"2 1 18704 18577 5490 XOR";
"2 1 5490 5489 5488 AND";
"2 1 18639 18576 3855 XOR";
"2 1 3855 17001 18451 XOR";
"2 1 3854 17002 18452 XOR";
"2 1 5488 18577 18578 XOR";
"2 1 18641 18578 3853 XOR";
"2 1 17002 18578 5486 XOR";
"2 1 18705 18578 5487 XOR";
"2 1 5487 5486 5485 AND";
"2 1 3853 17003 18453 XOR";
"2 1 5485 18578 18579 XOR";
"2 1 18706 18579 5484 XOR";
"2 1 17003 18579 5483 XOR";
"2 1 5484 5483 5482 AND";
"2 1 5482 18579 18580 XOR";
"2 1 18643 18580 3851 XOR";
"2 1 18707 18580 5481 XOR";
"2 1 17004 18580 5480 XOR";
"2 1 3851 17005 18455 XOR";
"2 1 18642 18579 3852 XOR";
"2 1 3852 17004 18454 XOR";
"2 1 5481 5480 5479 AND";
"2 1 5479 18580 18581 XOR";
"2 1 18644 18581 3850 XOR";
"2 1 18708 18581 5478 XOR";
"2 1 3850 17006 18456 XOR";
"2 1 17005 18581 5477 XOR";
"2 1 18634 18571 3860 XOR";
"2 1 3860 16996 18446 XOR";
"2 1 5478 5477 5476 AND";
"2 1 5476 18581 18582 XOR";
"2 1 18709 18582 5475 XOR";
"2 1 18645 18582 3849 XOR";
"2 1 17006 18582 5474 XOR";
"2 1 5475 5474 5473 AND";
"2 1 3849 17007 18457 XOR";
"2 1 5473 18582 18583 XOR";
"2 1 18646 18583 3848 XOR";
"2 1 18710 18583 5472 XOR";
"2 1 17007 18583 5471 XOR";
"2 1 5472 5471 5470 AND";
"2 1 5470 18583 18584 XOR";
"2 1 18711 18584 5469 XOR";
"2 1 18647 18584 3847 XOR";
"2 1 3848 17008 18458 XOR";
"2 1 3847 17009 18459 XOR";
"2 1 17008 18584 5468 XOR";
"2 1 5469 5468 5467 AND";
"2 1 5467 18584 18585 XOR";
"2 1 18648 18585 188 XOR";
"1 1 188 16634 INV";
"2 1 3907 16634 18463 XOR";
"2 1 3901 16634 18469 XOR";
"2 1 3895 16634 18475 XOR";
"2 1 3889 16634 18481 XOR";
"2 1 3883 16634 18487 XOR";
"2 1 3877 16634 18493 XOR";
"2 1 3871 16634 18499 XOR";
"2 1 3865 16634 18505 XOR";
"2 1 3859 16634 18511 XOR";
"2 1 3853 16634 18517 XOR";
"2 1 3909 16634 18461 XOR";
"2 1 16823 16634 18460 XOR";
"2 1 3908 16634 18462 XOR";
"2 1 3903 16634 18467 XOR";
"2 1 3904 16634 18466 XOR";
"2 1 3906 16634 18464 XOR";
"2 1 3905 16634 18465 XOR";
"2 1 3902 16634 18468 XOR";
"2 1 3897 16634 18473 XOR";
"2 1 3898 16634 18472 XOR";
"2 1 3900 16634 18470 XOR";
"2 1 3899 16634 18471 XOR";
"2 1 3896 16634 18474 XOR";
"2 1 3891 16634 18479 XOR";
"2 1 3892 16634 18478 XOR";
"2 1 3894 16634 18476 XOR";
"2 1 3893 16634 18477 XOR";
"2 1 3890 16634 18480 XOR";
"2 1 3885 16634 18485 XOR";
"2 1 3886 16634 18484 XOR";
"2 1 3888 16634 18482 XOR";
"2 1 3887 16634 18483 XOR";
"2 1 3884 16634 18486 XOR";
"2 1 3879 16634 18491 XOR";
"2 1 3880 16634 18490 XOR";
"2 1 3882 16634 18488 XOR";
"2 1 3881 16634 18489 XOR";
"2 1 3878 16634 18492 XOR";
"2 1 3873 16634 18497 XOR";
"2 1 3874 16634 18496 XOR";
"2 1 3876 16634 18494 XOR";
"2 1 3875 16634 18495 XOR";
"2 1 3872 16634 18498 XOR";
"2 1 3867 16634 18503 XOR";
"2 1 3868 16634 18502 XOR";
"2 1 3870 16634 18500 XOR";
"2 1 3869 16634 18501 XOR";
"2 1 3866 16634 18504 XOR";
"2 1 3861 16634 18509 XOR";
"2 1 3862 16634 18508 XOR";
"2 1 3864 16634 18506 XOR";
"2 1 3863 16634 18507 XOR";
"2 1 3860 16634 18510 XOR";
"2 1 3855 16634 18515 XOR";
"2 1 3856 16634 18514 XOR";
"2 1 3858 16634 18512 XOR";
"2 1 3857 16634 18513 XOR";
"2 1 3854 16634 18516 XOR";
"2 1 3849 16634 18521 XOR";
"2 1 3850 16634 18520 XOR";
"2 1 3852 16634 18518 XOR";
"2 1 3851 16634 18519 XOR";
"2 1 3848 16634 18522 XOR";
"2 1 16634 4535 17518 AND";
"2 1 18460 16946 18334 AND";
"2 1 18397 18334 3971 XOR";
"2 1 16947 18334 5465 XOR";
"2 1 18461 18334 5466 XOR";
"2 1 5466 5465 5464 AND";
"2 1 5464 18334 18335 XOR";
"2 1 18398 18335 3970 XOR";
"2 1 18462 18335 5463 XOR";
"2 1 16948 18335 5462 XOR";
"2 1 5463 5462 5461 AND";
"2 1 5461 18335 18336 XOR";
"2 1 18399 18336 3969 XOR";
"2 1 16949 18336 5459 XOR";
"2 1 18463 18336 5460 XOR";
"2 1 5460 5459 5458 AND";
"2 1 5458 18336 18337 XOR";
"2 1 18400 18337 3968 XOR";
"2 1 18464 18337 5457 XOR";
"2 1 16950 18337 5456 XOR";
"2 1 5457 5456 5455 AND";
"2 1 5455 18337 18338 XOR";
"2 1 18465 18338 5454 XOR";
"2 1 18401 18338 3967 XOR";
"2 1 16951 18338 5453 XOR";
"2 1 5454 5453 5452 AND";
"2 1 5452 18338 18339 XOR";
"2 1 16952 18339 5450 XOR";
"2 1 18466 18339 5451 XOR";
"2 1 5451 5450 5449 AND";
"2 1 5449 18339 18340 XOR";
"2 1 18403 18340 3965 XOR";
"2 1 16953 18340 5447 XOR";
"2 1 18467 18340 5448 XOR";
"2 1 5448 5447 5446 AND";
"2 1 18402 18339 3966 XOR";
"2 1 5446 18340 18341 XOR";
"2 1 18404 18341 3964 XOR";
"2 1 18468 18341 5445 XOR";
"2 1 16954 18341 5444 XOR";
"2 1 5445 5444 5443 AND";
"2 1 5443 18341 18342 XOR";
"2 1 18405 18342 3963 XOR";
"2 1 16955 18342 5441 XOR";
"2 1 18469 18342 5442 XOR";
"2 1 5442 5441 5440 AND";
"2 1 5440 18342 18343 XOR";
"2 1 18406 18343 3962 XOR";
"2 1 18470 18343 5439 XOR";
"2 1 16956 18343 5438 XOR";
"2 1 5439 5438 5437 AND";
"2 1 5437 18343 18344 XOR";
"2 1 18471 18344 5436 XOR";
"2 1 18407 18344 3961 XOR";
"2 1 16957 18344 5435 XOR";
"2 1 5436 5435 5434 AND";
"2 1 5434 18344 18345 XOR";
"2 1 16958 18345 5432 XOR";
"2 1 18472 18345 5433 XOR";
"2 1 5433 5432 5431 AND";
"2 1 5431 18345 18346 XOR";
"2 1 18409 18346 3959 XOR";
"2 1 16959 18346 5429 XOR";
"2 1 18473 18346 5430 XOR";
"2 1 5430 5429 5428 AND";
"2 1 18408 18345 3960 XOR";
"2 1 5428 18346 18347 XOR";
"2 1 18474 18347 5427 XOR";
"2 1 16960 18347 5426 XOR";
"2 1 18410 18347 3958 XOR";
"2 1 5427 5426 5425 AND";
"2 1 5425 18347 18348 XOR";
"2 1 18411 18348 3957 XOR";
"2 1 16961 18348 5423 XOR";
"2 1 18475 18348 5424 XOR";
"2 1 5424 5423 5422 AND";
"2 1 5422 18348 18349 XOR";
"2 1 18412 18349 3956 XOR";
"2 1 18476 18349 5421 XOR";
"2 1 16962 18349 5420 XOR";
"2 1 5421 5420 5419 AND";
"2 1 5419 18349 18350 XOR";
"2 1 18413 18350 3955 XOR";
"2 1 16963 18350 5417 XOR";
"2 1 18477 18350 5418 XOR";
"2 1 5418 5417 5416 AND";
"2 1 5416 18350 18351 XOR";
"2 1 18478 18351 5415 XOR";
"2 1 16964 18351 5414 XOR";
"2 1 5415 5414 5413 AND";
"2 1 5413 18351 18352 XOR";
"2 1 16965 18352 5411 XOR";
"2 1 18479 18352 5412 XOR";
"2 1 5412 5411 5410 AND";
"2 1 18415 18352 3953 XOR";
"2 1 18414 18351 3954 XOR";
"2 1 5410 18352 18353 XOR";
"2 1 18480 18353 5409 XOR";
"2 1 16966 18353 5408 XOR";
"2 1 18416 18353 3952 XOR";
"2 1 5409 5408 5407 AND";
"2 1 5407 18353 18354 XOR";
"2 1 16967 18354 5405 XOR";
"2 1 18417 18354 3951 XOR";
"2 1 18481 18354 5406 XOR";
"2 1 5406 5405 5404 AND";
"2 1 5404 18354 18355 XOR";
"2 1 18482 18355 5403 XOR";
"2 1 18418 18355 3950 XOR";
"2 1 16968 18355 5402 XOR";
"2 1 5403 5402 5401 AND";
"2 1 5401 18355 18356 XOR";
"2 1 16969 18356 5399 XOR";
"2 1 18483 18356 5400 XOR";
"2 1 5400 5399 5398 AND";
"2 1 18419 18356 3949 XOR";
"2 1 5398 18356 18357 XOR";
"2 1 16970 18357 5396 XOR";
"2 1 18484 18357 5397 XOR";
"2 1 5397 5396 5395 AND";
"2 1 5395 18357 18358 XOR";
"2 1 16971 18358 5393 XOR";
"2 1 18485 18358 5394 XOR";
"2 1 5394 5393 5392 AND";
"2 1 18421 18358 3947 XOR";
"2 1 18420 18357 3948 XOR";
"2 1 5392 18358 18359 XOR";
"2 1 18486 18359 5391 XOR";
"2 1 16972 18359 5390 XOR";
"2 1 18422 18359 3946 XOR";
"2 1 5391 5390 5389 AND";
"2 1 5389 18359 18360 XOR";
"2 1 18423 18360 3945 XOR";
"2 1 16973 18360 5387 XOR";
"2 1 18487 18360 5388 XOR";
"2 1 5388 5387 5386 AND";
"2 1 5386 18360 18361 XOR";
"2 1 18424 18361 3944 XOR";
"2 1 18488 18361 5385 XOR";
"2 1 16974 18361 5384 XOR";
"2 1 5385 5384 5383 AND";
"2 1 5383 18361 18362 XOR";
"2 1 18489 18362 5382 XOR";
"2 1 18425 18362 3943 XOR";
"2 1 16975 18362 5381 XOR";
"2 1 5382 5381 5380 AND";
"2 1 5380 18362 18363 XOR";
"2 1 16976 18363 5378 XOR";
"2 1 18490 18363 5379 XOR";
"2 1 5379 5378 5377 AND";
"2 1 5377 18363 18364 XOR";
"2 1 16977 18364 5375 XOR";
"2 1 18491 18364 5376 XOR";
"2 1 5376 5375 5374 AND";
"2 1 18427 18364 3941 XOR";
"2 1 18426 18363 3942 XOR";
"2 1 5374 18364 18365 XOR";
"2 1 18428 18365 3940 XOR";
"2 1 18492 18365 5373 XOR";
"2 1 16978 18365 5372 XOR";
"2 1 5373 5372 5371 AND";
"2 1 5371 18365 18366 XOR";
"2 1 18429 18366 3939 XOR";
"2 1 16979 18366 5369 XOR";
"2 1 18493 18366 5370 XOR";
"2 1 5370 5369 5368 AND";
"2 1 5368 18366 18367 XOR";
"2 1 18430 18367 3938 XOR";
"2 1 18494 18367 5367 XOR";
"2 1 16980 18367 5366 XOR";
"2 1 5367 5366 5365 AND";
"2 1 5365 18367 18368 XOR";
"2 1 18431 18368 3937 XOR";
"2 1 18495 18368 5364 XOR";
"2 1 16981 18368 5363 XOR";
"2 1 5364 5363 5362 AND";
"2 1 5362 18368 18369 XOR";
"2 1 18496 18369 5361 XOR";
"2 1 16982 18369 5360 XOR";
"2 1 5361 5360 5359 AND";
"2 1 5359 18369 18370 XOR";
"2 1 16983 18370 5357 XOR";
"2 1 18433 18370 3935 XOR";
"2 1 18497 18370 5358 XOR";
"2 1 5358 5357 5356 AND";
"2 1 18432 18369 3936 XOR";
"2 1 5356 18370 18371 XOR";
"2 1 18434 18371 3934 XOR";
"2 1 18498 18371 5355 XOR";
"2 1 16984 18371 5354 XOR";
"2 1 5355 5354 5353 AND";
"2 1 5353 18371 18372 XOR";
"2 1 16985 18372 5351 XOR";
"2 1 18435 18372 3933 XOR";
"2 1 18499 18372 5352 XOR";
"2 1 5352 5351 5350 AND";
"2 1 5350 18372 18373 XOR";
"2 1 18500 18373 5349 XOR";
"2 1 18436 18373 3932 XOR";
"2 1 16986 18373 5348 XOR";
"2 1 5349 5348 5347 AND";
"2 1 5347 18373 18374 XOR";
"2 1 18501 18374 5346 XOR";
"2 1 18437 18374 3931 XOR";
"2 1 16987 18374 5345 XOR";
"2 1 5346 5345 5344 AND";
"2 1 5344 18374 18375 XOR";
"2 1 18502 18375 5343 XOR";
"2 1 16988 18375 5342 XOR";
"2 1 5343 5342 5341 AND";
"2 1 5341 18375 18376 XOR";
"2 1 16989 18376 5339 XOR";
"2 1 18439 18376 3929 XOR";
"2 1 18503 18376 5340 XOR";
"2 1 5340 5339 5338 AND";
"2 1 18438 18375 3930 XOR";
"2 1 5338 18376 18377 XOR";
"2 1 18440 18377 3928 XOR";
"2 1 18504 18377 5337 XOR";
"2 1 16990 18377 5336 XOR";
"2 1 5337 5336 5335 AND";
"2 1 5335 18377 18378 XOR";
"2 1 18441 18378 3927 XOR";
"2 1 16991 18378 5333 XOR";
"2 1 18505 18378 5334 XOR";
"2 1 5334 5333 5332 AND";
"2 1 5332 18378 18379 XOR";
"2 1 18506 18379 5331 XOR";
"2 1 18442 18379 3926 XOR";
"2 1 16992 18379 5330 XOR";
"2 1 5331 5330 5329 AND";
"2 1 5329 18379 18380 XOR";
"2 1 18507 18380 5328 XOR";
"2 1 16993 18380 5327 XOR";
"2 1 5328 5327 5326 AND";
"2 1 5326 18380 18381 XOR";
"2 1 16994 18381 5324 XOR";
"2 1 18443 18380 3925 XOR";
"2 1 18508 18381 5325 XOR";
"2 1 5325 5324 5323 AND";
"2 1 5323 18381 18382 XOR";
"2 1 16995 18382 5321 XOR";
"2 1 18509 18382 5322 XOR";
"2 1 5322 5321 5320 AND";
"2 1 18445 18382 3923 XOR";
"2 1 18444 18381 3924 XOR";
"2 1 5320 18382 18383 XOR";
"2 1 18510 18383 5319 XOR";
"2 1 18446 18383 3922 XOR";
"2 1 16996 18383 5318 XOR";
"2 1 5319 5318 5317 AND";
"2 1 5317 18383 18384 XOR";
"2 1 18447 18384 3921 XOR";
"2 1 16997 18384 5315 XOR";
"2 1 18511 18384 5316 XOR";
"2 1 5316 5315 5314 AND";
"2 1 5314 18384 18385 XOR";
"2 1 18512 18385 5313 XOR";
"2 1 18448 18385 3920 XOR";
"2 1 16998 18385 5312 XOR";
"2 1 5313 5312 5311 AND";
"2 1 5311 18385 18386 XOR";
"2 1 18513 18386 5310 XOR";
"2 1 18449 18386 3919 XOR";
"2 1 16999 18386 5309 XOR";
"2 1 5310 5309 5308 AND";
"2 1 5308 18386 18387 XOR";
"2 1 17000 18387 5306 XOR";
"2 1 18514 18387 5307 XOR";
"2 1 5307 5306 5305 AND";
"2 1 5305 18387 18388 XOR";
"2 1 18451 18388 3917 XOR";
"2 1 17001 18388 5303 XOR";
"2 1 18515 18388 5304 XOR";
"2 1 5304 5303 5302 AND";
"2 1 18450 18387 3918 XOR";
"2 1 5302 18388 18389 XOR";
"2 1 18452 18389 3916 XOR";
"2 1 18516 18389 5301 XOR";
"2 1 17002 18389 5300 XOR";
"2 1 3971 16948 18209 XOR";
"2 1 3970 16949 18210 XOR";
"2 1 3969 16950 18211 XOR";
"2 1 3968 16951 18212 XOR";
"2 1 3967 16952 18213 XOR";
"2 1 3966 16953 18214 XOR";
"2 1 3965 16954 18215 XOR";
"2 1 3964 16955 18216 XOR";
"2 1 3963 16956 18217 XOR";
"2 1 3962 16957 18218 XOR";
"2 1 3961 16958 18219 XOR";
"2 1 3960 16959 18220 XOR";
"2 1 3959 16960 18221 XOR";
"2 1 3958 16961 18222 XOR";
"2 1 3957 16962 18223 XOR";
"2 1 3956 16963 18224 XOR";
"2 1 3955 16964 18225 XOR";
"2 1 3954 16965 18226 XOR";
"2 1 3953 16966 18227 XOR";
"2 1 3952 16967 18228 XOR";
"2 1 3951 16968 18229 XOR";
"2 1 3950 16969 18230 XOR";
"2 1 3949 16970 18231 XOR";
"2 1 3948 16971 18232 XOR";
"2 1 3947 16972 18233 XOR";
"2 1 3946 16973 18234 XOR";
"2 1 3945 16974 18235 XOR";
"2 1 3944 16975 18236 XOR";
"2 1 3943 16976 18237 XOR";
"2 1 3942 16977 18238 XOR";
"2 1 3941 16978 18239 XOR";
"2 1 3940 16979 18240 XOR";
"2 1 3939 16980 18241 XOR";
"2 1 3938 16981 18242 XOR";
"2 1 3937 16982 18243 XOR";
"2 1 3936 16983 18244 XOR";
"2 1 3935 16984 18245 XOR";
"2 1 3934 16985 18246 XOR";
"2 1 3933 16986 18247 XOR";
"2 1 3932 16987 18248 XOR";
"2 1 3931 16988 18249 XOR";
"2 1 3930 16989 18250 XOR";
"2 1 3929 16990 18251 XOR";
"2 1 3928 16991 18252 XOR";
"2 1 3927 16992 18253 XOR";
"2 1 3926 16993 18254 XOR";
"2 1 3925 16994 18255 XOR";
"2 1 3924 16995 18256 XOR";
"2 1 3923 16996 18257 XOR";
"2 1 3922 16997 18258 XOR";
"2 1 3921 16998 18259 XOR";
"2 1 3920 16999 18260 XOR";
"2 1 3919 17000 18261 XOR";
"2 1 3918 17001 18262 XOR";
"2 1 3917 17002 18263 XOR";
"2 1 3916 17003 18264 XOR";
"2 1 5301 5300 5299 AND";
"2 1 5299 18389 18390 XOR";
"2 1 18453 18390 3915 XOR";
"2 1 17003 18390 5297 XOR";
"2 1 3915 17004 18265 XOR";
"2 1 18517 18390 5298 XOR";
"2 1 5298 5297 5296 AND";
"2 1 5296 18390 18391 XOR";
"2 1 18518 18391 5295 XOR";
"2 1 18454 18391 3914 XOR";
"2 1 3914 17005 18266 XOR";
"2 1 17004 18391 5294 XOR";
"2 1 5295 5294 5293 AND";
"2 1 5293 18391 18392 XOR";
"2 1 18455 18392 3913 XOR";
"2 1 17005 18392 5291 XOR";
"2 1 3913 17006 18267 XOR";
"2 1 18519 18392 5292 XOR";
"2 1 5292 5291 5290 AND";
"2 1 5290 18392 18393 XOR";
"2 1 17006 18393 5288 XOR";
"2 1 18456 18393 3912 XOR";
"2 1 3912 17007 18268 XOR";
"2 1 18520 18393 5289 XOR";
"2 1 5289 5288 5287 AND";
"2 1 5287 18393 18394 XOR";
"2 1 17007 18394 5285 XOR";
"2 1 18521 18394 5286 XOR";
"2 1 18457 18394 3911 XOR";
"2 1 3911 17008 18269 XOR";
"2 1 5286 5285 5284 AND";
"2 1 5284 18394 18395 XOR";
"2 1 17008 18395 5282 XOR";
"2 1 18522 18395 5283 XOR";
"2 1 18458 18395 3910 XOR";
"2 1 3910 17009 18270 XOR";
"2 1 5283 5282 5281 AND";
"2 1 5281 18395 18396 XOR";
"2 1 18459 18396 189 XOR";
"1 1 189 16633 INV";
"2 1 3970 16633 18274 XOR";
"2 1 3964 16633 18280 XOR";
"2 1 3958 16633 18286 XOR";
"2 1 3952 16633 18292 XOR";
"2 1 3946 16633 18298 XOR";
"2 1 3940 16633 18304 XOR";
"2 1 3934 16633 18310 XOR";
"2 1 3928 16633 18316 XOR";
"2 1 3922 16633 18322 XOR";
"2 1 3916 16633 18328 XOR";
"2 1 3972 16633 18272 XOR";
"2 1 16822 16633 18271 XOR";
"2 1 3971 16633 18273 XOR";
"2 1 3966 16633 18278 XOR";
"2 1 3967 16633 18277 XOR";
"2 1 3969 16633 18275 XOR";
"2 1 3968 16633 18276 XOR";
"2 1 3965 16633 18279 XOR";
"2 1 3960 16633 18284 XOR";
"2 1 3961 16633 18283 XOR";
"2 1 3963 16633 18281 XOR";
"2 1 3962 16633 18282 XOR";
"2 1 3959 16633 18285 XOR";
"2 1 3954 16633 18290 XOR";
"2 1 3955 16633 18289 XOR";
"2 1 3957 16633 18287 XOR";
"2 1 3956 16633 18288 XOR";
"2 1 3953 16633 18291 XOR";
"2 1 3948 16633 18296 XOR";
"2 1 3949 16633 18295 XOR";
"2 1 3951 16633 18293 XOR";
"2 1 3950 16633 18294 XOR";
"2 1 3947 16633 18297 XOR";
"2 1 3942 16633 18302 XOR";
"2 1 3943 16633 18301 XOR";
"2 1 3945 16633 18299 XOR";
"2 1 3944 16633 18300 XOR";
"2 1 3941 16633 18303 XOR";
"2 1 3936 16633 18308 XOR";
"2 1 3937 16633 18307 XOR";
"2 1 3939 16633 18305 XOR";
"2 1 3938 16633 18306 XOR";
"2 1 3935 16633 18309 XOR";
"2 1 3930 16633 18314 XOR";
"2 1 3931 16633 18313 XOR";
"2 1 3933 16633 18311 XOR";
"2 1 3932 16633 18312 XOR";
"2 1 3929 16633 18315 XOR";
"2 1 3924 16633 18320 XOR";
"2 1 3925 16633 18319 XOR";
"2 1 3927 16633 18317 XOR";
"2 1 3926 16633 18318 XOR";
"2 1 3923 16633 18321 XOR";
"2 1 3918 16633 18326 XOR";
"2 1 3919 16633 18325 XOR";
"2 1 3921 16633 18323 XOR";
"2 1 3920 16633 18324 XOR";
"2 1 3917 16633 18327 XOR";
"2 1 3912 16633 18332 XOR";
"2 1 3913 16633 18331 XOR";
"2 1 3915 16633 18329 XOR";
"2 1 3914 16633 18330 XOR";
"2 1 3911 16633 18333 XOR";
"2 1 18271 16946 18145 AND";
"2 1 18272 18145 5280 XOR";
"2 1 16947 18145 5279 XOR";
"2 1 5280 5279 5278 AND";
"2 1 5278 18145 18146 XOR";
"2 1 18209 18146 4033 XOR";
"2 1 16948 18146 5276 XOR";
"2 1 18273 18146 5277 XOR";
"2 1 5277 5276 5275 AND";
"2 1 5275 18146 18147 XOR";
"2 1 18210 18147 4032 XOR";
"2 1 18274 18147 5274 XOR";
"2 1 16949 18147 5273 XOR";
"2 1 5274 5273 5272 AND";
"2 1 5272 18147 18148 XOR";
"2 1 18275 18148 5271 XOR";
"2 1 18211 18148 4031 XOR";
"2 1 16950 18148 5270 XOR";
"2 1 5271 5270 5269 AND";
"2 1 5269 18148 18149 XOR";
"2 1 16951 18149 5267 XOR";
"2 1 18276 18149 5268 XOR";
"2 1 5268 5267 5266 AND";
"2 1 5266 18149 18150 XOR";
"2 1 18213 18150 4029 XOR";
"2 1 16952 18150 5264 XOR";
"2 1 18277 18150 5265 XOR";
"2 1 5265 5264 5263 AND";
"2 1 18212 18149 4030 XOR";
"2 1 5263 18150 18151 XOR";
"2 1 18214 18151 4028 XOR";
"2 1 18278 18151 5262 XOR";
"2 1 16953 18151 5261 XOR";
"2 1 5262 5261 5260 AND";
"2 1 5260 18151 18152 XOR";
"2 1 18215 18152 4027 XOR";
"2 1 16954 18152 5258 XOR";
"2 1 18279 18152 5259 XOR";
"2 1 5259 5258 5257 AND";
"2 1 5257 18152 18153 XOR";
"2 1 18216 18153 4026 XOR";
"2 1 18280 18153 5256 XOR";
"2 1 16955 18153 5255 XOR";
"2 1 5256 5255 5254 AND";
"2 1 5254 18153 18154 XOR";
"2 1 18281 18154 5253 XOR";
"2 1 18217 18154 4025 XOR";
"2 1 16956 18154 5252 XOR";
"2 1 5253 5252 5251 AND";
"2 1 5251 18154 18155 XOR";
"2 1 16957 18155 5249 XOR";
"2 1 18282 18155 5250 XOR";
"2 1 5250 5249 5248 AND";
"2 1 5248 18155 18156 XOR";
"2 1 18219 18156 4023 XOR";
"2 1 16958 18156 5246 XOR";
"2 1 18283 18156 5247 XOR";
"2 1 5247 5246 5245 AND";
"2 1 18218 18155 4024 XOR";
"2 1 5245 18156 18157 XOR";
"2 1 18220 18157 4022 XOR";
"2 1 18284 18157 5244 XOR";
"2 1 16959 18157 5243 XOR";
"2 1 5244 5243 5242 AND";
"2 1 5242 18157 18158 XOR";
"2 1 18221 18158 4021 XOR";
"2 1 16960 18158 5240 XOR";
"2 1 18285 18158 5241 XOR";
"2 1 5241 5240 5239 AND";
"2 1 5239 18158 18159 XOR";
"2 1 18222 18159 4020 XOR";
"2 1 18286 18159 5238 XOR";
"2 1 16961 18159 5237 XOR";
"2 1 5238 5237 5236 AND";
"2 1 5236 18159 18160 XOR";
"2 1 18287 18160 5235 XOR";
"2 1 18223 18160 4019 XOR";
"2 1 16962 18160 5234 XOR";
"2 1 5235 5234 5233 AND";
"2 1 5233 18160 18161 XOR";
"2 1 16963 18161 5231 XOR";
"2 1 18288 18161 5232 XOR";
"2 1 5232 5231 5230 AND";
"2 1 5230 18161 18162 XOR";
"2 1 18225 18162 4017 XOR";
"2 1 16964 18162 5228 XOR";
"2 1 18289 18162 5229 XOR";
"2 1 5229 5228 5227 AND";
"2 1 18224 18161 4018 XOR";
"2 1 5227 18162 18163 XOR";
"2 1 18290 18163 5226 XOR";
"2 1 16965 18163 5225 XOR";
"2 1 18226 18163 4016 XOR";
"2 1 5226 5225 5224 AND";
"2 1 5224 18163 18164 XOR";
"2 1 16966 18164 5222 XOR";
"2 1 18227 18164 4015 XOR";
"2 1 18291 18164 5223 XOR";
"2 1 5223 5222 5221 AND";
"2 1 5221 18164 18165 XOR";
"2 1 18292 18165 5220 XOR";
"2 1 18228 18165 4014 XOR";
"2 1 16967 18165 5219 XOR";
"2 1 5220 5219 5218 AND";
"2 1 5218 18165 18166 XOR";
"2 1 16968 18166 5216 XOR";
"2 1 18229 18166 4013 XOR";
"2 1 18293 18166 5217 XOR";
"2 1 5217 5216 5215 AND";
"2 1 5215 18166 18167 XOR";
"2 1 16969 18167 5213 XOR";
"2 1 18294 18167 5214 XOR";
"2 1 5214 5213 5212 AND";
"2 1 5212 18167 18168 XOR";
"2 1 18295 18168 5211 XOR";
"2 1 18231 18168 4011 XOR";
"2 1 16970 18168 5210 XOR";
"2 1 5211 5210 5209 AND";
"2 1 18230 18167 4012 XOR";
"2 1 5209 18168 18169 XOR";
"2 1 18232 18169 4010 XOR";
"2 1 18296 18169 5208 XOR";
"2 1 16971 18169 5207 XOR";
"2 1 5208 5207 5206 AND";
"2 1 5206 18169 18170 XOR";
"2 1 18233 18170 4009 XOR";
"2 1 16972 18170 5204 XOR";
"2 1 18297 18170 5205 XOR";
"2 1 5205 5204 5203 AND";
"2 1 5203 18170 18171 XOR";
"2 1 18234 18171 4008 XOR";
"2 1 18298 18171 5202 XOR";
"2 1 16973 18171 5201 XOR";
"2 1 5202 5201 5200 AND";
"2 1 5200 18171 18172 XOR";
"2 1 16974 18172 5198 XOR";
"2 1 18235 18172 4007 XOR";
"2 1 18299 18172 5199 XOR";
"2 1 5199 5198 5197 AND";
"2 1 5197 18172 18173 XOR";
"2 1 16975 18173 5195 XOR";
"2 1 18300 18173 5196 XOR";
"2 1 5196 5195 5194 AND";
"2 1 5194 18173 18174 XOR";
"2 1 18237 18174 4005 XOR";
"2 1 18301 18174 5193 XOR";
"2 1 16976 18174 5192 XOR";
"2 1 5193 5192 5191 AND";
"2 1 18236 18173 4006 XOR";
"2 1 5191 18174 18175 XOR";
"2 1 16977 18175 5189 XOR";
"2 1 18238 18175 4004 XOR";
"2 1 18302 18175 5190 XOR";
"2 1 5190 5189 5188 AND";
"2 1 5188 18175 18176 XOR";
"2 1 18239 18176 4003 XOR";
"2 1 16978 18176 5186 XOR";
"2 1 18303 18176 5187 XOR";
"2 1 5187 5186 5185 AND";
"2 1 5185 18176 18177 XOR";
"2 1 18304 18177 5184 XOR";
"2 1 18240 18177 4002 XOR";
"2 1 16979 18177 5183 XOR";
"2 1 5184 5183 5182 AND";
"2 1 5182 18177 18178 XOR";
"2 1 18305 18178 5181 XOR";
"2 1 16980 18178 5180 XOR";
"2 1 5181 5180 5179 AND";
"2 1 5179 18178 18179 XOR";
"2 1 16981 18179 5177 XOR";
"2 1 18241 18178 4001 XOR";
"2 1 18306 18179 5178 XOR";
"2 1 5178 5177 5176 AND";
"2 1 5176 18179 18180 XOR";
"2 1 18243 18180 3999 XOR";
"2 1 18307 18180 5175 XOR";
"2 1 16982 18180 5174 XOR";
"2 1 5175 5174 5173 AND";
"2 1 18242 18179 4000 XOR";
"2 1 5173 18180 18181 XOR";
"2 1 18308 18181 5172 XOR";
"2 1 16983 18181 5171 XOR";
"2 1 18244 18181 3998 XOR";
"2 1 5172 5171 5170 AND";
"2 1 5170 18181 18182 XOR";
"2 1 16984 18182 5168 XOR";
"2 1 18245 18182 3997 XOR";
"2 1 18309 18182 5169 XOR";
"2 1 5169 5168 5167 AND";
"2 1 5167 18182 18183 XOR";
"2 1 18246 18183 3996 XOR";
"2 1 18310 18183 5166 XOR";
"2 1 16985 18183 5165 XOR";
"2 1 5166 5165 5164 AND";
"2 1 5164 18183 18184 XOR";
"2 1 16986 18184 5162 XOR";
"2 1 18311 18184 5163 XOR";
"2 1 5163 5162 5161 AND";
"2 1 18247 18184 3995 XOR";
"2 1 5161 18184 18185 XOR";
"2 1 16987 18185 5159 XOR";
"2 1 18312 18185 5160 XOR";
"2 1 5160 5159 5158 AND";
"2 1 5158 18185 18186 XOR";
"2 1 18249 18186 3993 XOR";
"2 1 18313 18186 5157 XOR";
"2 1 16988 18186 5156 XOR";
"2 1 5157 5156 5155 AND";
"2 1 18248 18185 3994 XOR";
"2 1 5155 18186 18187 XOR";
"2 1 18250 18187 3992 XOR";
"2 1 16989 18187 5153 XOR";
"2 1 18314 18187 5154 XOR";
"2 1 5154 5153 5152 AND";
"2 1 5152 18187 18188 XOR";
"2 1 16990 18188 5150 XOR";
"2 1 18251 18188 3991 XOR";
"2 1 18315 18188 5151 XOR";
"2 1 5151 5150 5149 AND";
"2 1 5149 18188 18189 XOR";
"2 1 18316 18189 5148 XOR";
"2 1 18252 18189 3990 XOR";
"2 1 16991 18189 5147 XOR";
"2 1 5148 5147 5146 AND";
"2 1 5146 18189 18190 XOR";
"2 1 16992 18190 5144 XOR";
"2 1 18317 18190 5145 XOR";
"2 1 5145 5144 5143 AND";
"2 1 5143 18190 18191 XOR";
"2 1 18318 18191 5142 XOR";
"2 1 18253 18190 3989 XOR";
"2 1 16993 18191 5141 XOR";
"2 1 5142 5141 5140 AND";
"2 1 5140 18191 18192 XOR";
"2 1 18319 18192 5139 XOR";
"2 1 18255 18192 3987 XOR";
"2 1 16994 18192 5138 XOR";
"2 1 5139 5138 5137 AND";
"2 1 18254 18191 3988 XOR";
"2 1 5137 18192 18193 XOR";
"2 1 18320 18193 5136 XOR";
"2 1 16995 18193 5135 XOR";
"2 1 18256 18193 3986 XOR";
"2 1 5136 5135 5134 AND";
"2 1 5134 18193 18194 XOR";
"2 1 16996 18194 5132 XOR";
"2 1 18257 18194 3985 XOR";
"2 1 18321 18194 5133 XOR";
"2 1 5133 5132 5131 AND";
"2 1 5131 18194 18195 XOR";
"2 1 18322 18195 5130 XOR";
"2 1 18258 18195 3984 XOR";
"2 1 16997 18195 5129 XOR";
"2 1 5130 5129 5128 AND";
"2 1 5128 18195 18196 XOR";
"2 1 18259 18196 3983 XOR";
"2 1 18323 18196 5127 XOR";
"2 1 16998 18196 5126 XOR";
"2 1 5127 5126 5125 AND";
"2 1 5125 18196 18197 XOR";
"2 1 16999 18197 5123 XOR";
"2 1 18324 18197 5124 XOR";
"2 1 5124 5123 5122 AND";
"2 1 5122 18197 18198 XOR";
"2 1 18261 18198 3981 XOR";
"2 1 17000 18198 5120 XOR";
"2 1 18325 18198 5121 XOR";
"2 1 5121 5120 5119 AND";
"2 1 18260 18197 3982 XOR";
"2 1 5119 18198 18199 XOR";
"2 1 18262 18199 3980 XOR";
"2 1 17001 18199 5117 XOR";
"2 1 18326 18199 5118 XOR";
"2 1 5118 5117 5116 AND";
"2 1 5116 18199 18200 XOR";
"2 1 18263 18200 3979 XOR";
"2 1 17002 18200 5114 XOR";
"2 1 18327 18200 5115 XOR";
"2 1 5115 5114 5113 AND";
"2 1 5113 18200 18201 XOR";
"2 1 18328 18201 5112 XOR";
"2 1 18264 18201 3978 XOR";
"2 1 4033 16949 18021 XOR";
"2 1 4032 16950 18022 XOR";
"2 1 4031 16951 18023 XOR";
"2 1 4030 16952 18024 XOR";
"2 1 4029 16953 18025 XOR";
"2 1 4028 16954 18026 XOR";
"2 1 4027 16955 18027 XOR";
"2 1 4026 16956 18028 XOR";
"2 1 4025 16957 18029 XOR";
"2 1 4024 16958 18030 XOR";
"2 1 4023 16959 18031 XOR";
"2 1 4022 16960 18032 XOR";
"2 1 4021 16961 18033 XOR";
"2 1 4020 16962 18034 XOR";
"2 1 4019 16963 18035 XOR";
"2 1 4018 16964 18036 XOR";
"2 1 4017 16965 18037 XOR";
"2 1 4016 16966 18038 XOR";
"2 1 4015 16967 18039 XOR";
"2 1 4014 16968 18040 XOR";
"2 1 4013 16969 18041 XOR";
"2 1 4012 16970 18042 XOR";
"2 1 4011 16971 18043 XOR";
"2 1 4010 16972 18044 XOR";
"2 1 4009 16973 18045 XOR";
"2 1 4008 16974 18046 XOR";
"2 1 4007 16975 18047 XOR";
"2 1 4006 16976 18048 XOR";
"2 1 4005 16977 18049 XOR";
"2 1 4004 16978 18050 XOR";
"2 1 4003 16979 18051 XOR";
"2 1 4002 16980 18052 XOR";
"2 1 4001 16981 18053 XOR";
"2 1 4000 16982 18054 XOR";
"2 1 3999 16983 18055 XOR";
"2 1 3998 16984 18056 XOR";
"2 1 3997 16985 18057 XOR";
"2 1 3996 16986 18058 XOR";
"2 1 3995 16987 18059 XOR";
"2 1 3994 16988 18060 XOR";
"2 1 3993 16989 18061 XOR";
"2 1 3992 16990 18062 XOR";
"2 1 3991 16991 18063 XOR";
"2 1 3990 16992 18064 XOR";
"2 1 3989 16993 18065 XOR";
"2 1 3988 16994 18066 XOR";
"2 1 3987 16995 18067 XOR";
"2 1 3986 16996 18068 XOR";
"2 1 3985 16997 18069 XOR";
"2 1 3984 16998 18070 XOR";
"2 1 3983 16999 18071 XOR";
"2 1 3982 17000 18072 XOR";
"2 1 3981 17001 18073 XOR";
"2 1 3980 17002 18074 XOR";
"2 1 3979 17003 18075 XOR";
"2 1 3978 17004 18076 XOR";
"2 1 18208 18145 4034 XOR";
"2 1 4034 16948 18020 XOR";
"2 1 17003 18201 5111 XOR";
"2 1 5112 5111 5110 AND";
"2 1 5110 18201 18202 XOR";
"2 1 18329 18202 5109 XOR";
"2 1 18265 18202 3977 XOR";
"2 1 17004 18202 5108 XOR";
"2 1 5109 5108 5107 AND";
"2 1 5107 18202 18203 XOR";
"2 1 17005 18203 5105 XOR";
"2 1 18330 18203 5106 XOR";
"2 1 5106 5105 5104 AND";
"2 1 3977 17005 18077 XOR";
"2 1 5104 18203 18204 XOR";
"2 1 18267 18204 3975 XOR";
"2 1 18331 18204 5103 XOR";
"2 1 17006 18204 5102 XOR";
"2 1 5103 5102 5101 AND";
"2 1 5101 18204 18205 XOR";
"2 1 18268 18205 3974 XOR";
"2 1 18332 18205 5100 XOR";
"2 1 17007 18205 5099 XOR";
"2 1 5100 5099 5098 AND";
"2 1 5098 18205 18206 XOR";
"2 1 18269 18206 3973 XOR";
"2 1 17008 18206 5096 XOR";
"2 1 18333 18206 5097 XOR";
"2 1 5097 5096 5095 AND";
"2 1 5095 18206 18207 XOR";
"2 1 18270 18207 190 XOR";
"2 1 3975 17007 18079 XOR";
"2 1 3974 17008 18080 XOR";
"2 1 3973 17009 18081 XOR";
"2 1 16633 4535 17517 AND";
"1 1 190 16632 INV";
"2 1 4032 16632 18086 XOR";
"2 1 4026 16632 18092 XOR";
"2 1 4020 16632 18098 XOR";
"2 1 4014 16632 18104 XOR";
"2 1 4008 16632 18110 XOR";
"2 1 4002 16632 18116 XOR";
"2 1 3996 16632 18122 XOR";
"2 1 3990 16632 18128 XOR";
"2 1 3984 16632 18134 XOR";
"2 1 3978 16632 18140 XOR";
"2 1 16632 4535 17516 AND";
"2 1 4034 16632 18084 XOR";
"2 1 4035 16632 18083 XOR";
"2 1 16821 16632 18082 XOR";
"2 1 4033 16632 18085 XOR";
"2 1 4028 16632 18090 XOR";
"2 1 4029 16632 18089 XOR";
"2 1 4031 16632 18087 XOR";
"2 1 4030 16632 18088 XOR";
"2 1 4027 16632 18091 XOR";
"2 1 4022 16632 18096 XOR";
"2 1 4023 16632 18095 XOR";
"2 1 4025 16632 18093 XOR";
"2 1 4024 16632 18094 XOR";
"2 1 4021 16632 18097 XOR";
"2 1 4016 16632 18102 XOR";
"2 1 4017 16632 18101 XOR";
"2 1 4019 16632 18099 XOR";
"2 1 4018 16632 18100 XOR";
"2 1 4015 16632 18103 XOR";
"2 1 4010 16632 18108 XOR";
"2 1 4011 16632 18107 XOR";
"2 1 4013 16632 18105 XOR";
"2 1 4012 16632 18106 XOR";
"2 1 4009 16632 18109 XOR";
"2 1 4004 16632 18114 XOR";
"2 1 4005 16632 18113 XOR";
"2 1 4007 16632 18111 XOR";
"2 1 4006 16632 18112 XOR";
"2 1 4003 16632 18115 XOR";
"2 1 3998 16632 18120 XOR";
"2 1 3999 16632 18119 XOR";
"2 1 4001 16632 18117 XOR";
"2 1 4000 16632 18118 XOR";
"2 1 3997 16632 18121 XOR";
"2 1 3992 16632 18126 XOR";
"2 1 3993 16632 18125 XOR";
"2 1 3995 16632 18123 XOR";
"2 1 3994 16632 18124 XOR";
"2 1 3991 16632 18127 XOR";
"2 1 3986 16632 18132 XOR";
"2 1 3987 16632 18131 XOR";
"2 1 3989 16632 18129 XOR";
"2 1 3988 16632 18130 XOR";
"2 1 3985 16632 18133 XOR";
"2 1 3980 16632 18138 XOR";
"2 1 3981 16632 18137 XOR";
"2 1 3983 16632 18135 XOR";
"2 1 3982 16632 18136 XOR";
"2 1 3979 16632 18139 XOR";
"2 1 3974 16632 18144 XOR";
"2 1 3975 16632 18143 XOR";
"2 1 3977 16632 18141 XOR";
"2 1 18082 16946 17956 AND";
"2 1 18083 17956 5094 XOR";
"2 1 16947 17956 5093 XOR";
"2 1 5094 5093 5092 AND";
"2 1 5092 17956 17957 XOR";
"2 1 18020 17957 4096 XOR";
"2 1 16948 17957 5090 XOR";
"2 1 18084 17957 5091 XOR";
"2 1 5091 5090 5089 AND";
"2 1 5089 17957 17958 XOR";
"2 1 18021 17958 4095 XOR";
"2 1 18085 17958 5088 XOR";
"2 1 16949 17958 5087 XOR";
"2 1 5088 5087 5086 AND";
"2 1 5086 17958 17959 XOR";
"2 1 18086 17959 5085 XOR";
"2 1 18022 17959 4094 XOR";
"2 1 16950 17959 5084 XOR";
"2 1 5085 5084 5083 AND";
"2 1 5083 17959 17960 XOR";
"2 1 16951 17960 5081 XOR";
"2 1 18087 17960 5082 XOR";
"2 1 5082 5081 5080 AND";
"2 1 5080 17960 17961 XOR";
"2 1 18024 17961 4092 XOR";
"2 1 16952 17961 5078 XOR";
"2 1 18088 17961 5079 XOR";
"2 1 5079 5078 5077 AND";
"2 1 18023 17960 4093 XOR";
"2 1 5077 17961 17962 XOR";
"2 1 18025 17962 4091 XOR";
"2 1 18089 17962 5076 XOR";
"2 1 16953 17962 5075 XOR";
"2 1 5076 5075 5074 AND";
"2 1 5074 17962 17963 XOR";
"2 1 18026 17963 4090 XOR";
"2 1 16954 17963 5072 XOR";
"2 1 18090 17963 5073 XOR";
"2 1 5073 5072 5071 AND";
"2 1 5071 17963 17964 XOR";
"2 1 18027 17964 4089 XOR";
"2 1 18091 17964 5070 XOR";
"2 1 16955 17964 5069 XOR";
"2 1 5070 5069 5068 AND";
"2 1 5068 17964 17965 XOR";
"2 1 18092 17965 5067 XOR";
"2 1 18028 17965 4088 XOR";
"2 1 16956 17965 5066 XOR";
"2 1 5067 5066 5065 AND";
"2 1 5065 17965 17966 XOR";
"2 1 16957 17966 5063 XOR";
"2 1 18093 17966 5064 XOR";
"2 1 5064 5063 5062 AND";
"2 1 5062 17966 17967 XOR";
"2 1 18030 17967 4086 XOR";
"2 1 16958 17967 5060 XOR";
"2 1 18094 17967 5061 XOR";
"2 1 5061 5060 5059 AND";
"2 1 18029 17966 4087 XOR";
"2 1 5059 17967 17968 XOR";
"2 1 18031 17968 4085 XOR";
"2 1 18095 17968 5058 XOR";
"2 1 16959 17968 5057 XOR";
"2 1 5058 5057 5056 AND";
"2 1 5056 17968 17969 XOR";
"2 1 18032 17969 4084 XOR";
"2 1 16960 17969 5054 XOR";
"2 1 18096 17969 5055 XOR";
"2 1 5055 5054 5053 AND";
"2 1 5053 17969 17970 XOR";
"2 1 18033 17970 4083 XOR";
"2 1 18097 17970 5052 XOR";
"2 1 16961 17970 5051 XOR";
"2 1 5052 5051 5050 AND";
"2 1 5050 17970 17971 XOR";
"2 1 18098 17971 5049 XOR";
"2 1 18034 17971 4082 XOR";
"2 1 16962 17971 5048 XOR";
"2 1 5049 5048 5047 AND";
"2 1 5047 17971 17972 XOR";
"2 1 16963 17972 5045 XOR";
"2 1 18099 17972 5046 XOR";
"2 1 5046 5045 5044 AND";
"2 1 5044 17972 17973 XOR";
"2 1 18036 17973 4080 XOR";
"2 1 16964 17973 5042 XOR";
"2 1 18100 17973 5043 XOR";
"2 1 5043 5042 5041 AND";
"2 1 18035 17972 4081 XOR";
"2 1 5041 17973 17974 XOR";
"2 1 18101 17974 5040 XOR";
"2 1 16965 17974 5039 XOR";
"2 1 18037 17974 4079 XOR";
"2 1 5040 5039 5038 AND";
"2 1 5038 17974 17975 XOR";
"2 1 16966 17975 5036 XOR";
"2 1 18038 17975 4078 XOR";
"2 1 18102 17975 5037 XOR";
"2 1 5037 5036 5035 AND";
"2 1 5035 17975 17976 XOR";
"2 1 18039 17976 4077 XOR";
"2 1 18103 17976 5034 XOR";
"2 1 16967 17976 5033 XOR";
"2 1 5034 5033 5032 AND";
"2 1 5032 17976 17977 XOR";
"2 1 18040 17977 4076 XOR";
"2 1 16968 17977 5030 XOR";
"2 1 18104 17977 5031 XOR";
"2 1 5031 5030 5029 AND";
"2 1 5029 17977 17978 XOR";
"2 1 16969 17978 5027 XOR";
"2 1 18105 17978 5028 XOR";
"2 1 5028 5027 5026 AND";
"2 1 5026 17978 17979 XOR";
"2 1 16970 17979 5024 XOR";
"2 1 18106 17979 5025 XOR";
"2 1 5025 5024 5023 AND";
"2 1 18042 17979 4074 XOR";
"2 1 18041 17978 4075 XOR";
"2 1 5023 17979 17980 XOR";
"2 1 18107 17980 5022 XOR";
"2 1 16971 17980 5021 XOR";
"2 1 18043 17980 4073 XOR";
"2 1 5022 5021 5020 AND";
"2 1 5020 17980 17981 XOR";
"2 1 16972 17981 5018 XOR";
"2 1 18044 17981 4072 XOR";
"2 1 18108 17981 5019 XOR";
"2 1 5019 5018 5017 AND";
"2 1 5017 17981 17982 XOR";
"2 1 18045 17982 4071 XOR";
"2 1 18109 17982 5016 XOR";
"2 1 16973 17982 5015 XOR";
"2 1 5016 5015 5014 AND";
"2 1 5014 17982 17983 XOR";
"2 1 18110 17983 5013 XOR";
"2 1 18046 17983 4070 XOR";
"2 1 16974 17983 5012 XOR";
"2 1 5013 5012 5011 AND";
"2 1 5011 17983 17984 XOR";
"2 1 18111 17984 5010 XOR";
"2 1 16975 17984 5009 XOR";
"2 1 5010 5009 5008 AND";
"2 1 5008 17984 17985 XOR";
"2 1 18112 17985 5007 XOR";
"2 1 16976 17985 5006 XOR";
"2 1 5007 5006 5005 AND";
"2 1 18048 17985 4068 XOR";
"2 1 18047 17984 4069 XOR";
"2 1 5005 17985 17986 XOR";
"2 1 16977 17986 5003 XOR";
"2 1 18049 17986 4067 XOR";
"2 1 18113 17986 5004 XOR";
"2 1 5004 5003 5002 AND";
"2 1 5002 17986 17987 XOR";
"2 1 16978 17987 5000 XOR";
"2 1 18050 17987 4066 XOR";
"2 1 18114 17987 5001 XOR";
"2 1 5001 5000 4999 AND";
"2 1 4999 17987 17988 XOR";
"2 1 18051 17988 4065 XOR";
"2 1 18115 17988 4998 XOR";
"2 1 16979 17988 4997 XOR";
"2 1 4998 4997 4996 AND";
"2 1 4996 17988 17989 XOR";
"2 1 18052 17989 4064 XOR";
"2 1 18116 17989 4995 XOR";
"2 1 16980 17989 4994 XOR";
"2 1 4995 4994 4993 AND";
"2 1 4993 17989 17990 XOR";
"2 1 18117 17990 4992 XOR";
"2 1 16981 17990 4991 XOR";
"2 1 4992 4991 4990 AND";
"2 1 4990 17990 17991 XOR";
"2 1 16982 17991 4988 XOR";
"2 1 18118 17991 4989 XOR";
"2 1 4989 4988 4987 AND";
"2 1 18054 17991 4062 XOR";
"2 1 18053 17990 4063 XOR";
"2 1 4987 17991 17992 XOR";
"2 1 18119 17992 4986 XOR";
"2 1 16983 17992 4985 XOR";
"2 1 18055 17992 4061 XOR";
"2 1 4986 4985 4984 AND";
"2 1 4984 17992 17993 XOR";
"2 1 18056 17993 4060 XOR";
"2 1 16984 17993 4982 XOR";
"2 1 18120 17993 4983 XOR";
"2 1 4983 4982 4981 AND";
"2 1 4981 17993 17994 XOR";
"2 1 18057 17994 4059 XOR";
"2 1 18121 17994 4980 XOR";
"2 1 16985 17994 4979 XOR";
"2 1 4980 4979 4978 AND";
"2 1 4978 17994 17995 XOR";
"2 1 18058 17995 4058 XOR";
"2 1 16986 17995 4976 XOR";
"2 1 18122 17995 4977 XOR";
"2 1 4977 4976 4975 AND";
"2 1 4975 17995 17996 XOR";
"2 1 18123 17996 4974 XOR";
"2 1 16987 17996 4973 XOR";
"2 1 4974 4973 4972 AND";
"2 1 4972 17996 17997 XOR";
"2 1 16988 17997 4970 XOR";
"2 1 18124 17997 4971 XOR";
"2 1 4971 4970 4969 AND";
"2 1 18060 17997 4056 XOR";
"2 1 18059 17996 4057 XOR";
"2 1 4969 17997 17998 XOR";
"2 1 18125 17998 4968 XOR";
"2 1 18061 17998 4055 XOR";
"2 1 16989 17998 4967 XOR";
"2 1 4968 4967 4966 AND";
"2 1 4966 17998 17999 XOR";
"2 1 18062 17999 4054 XOR";
"2 1 16990 17999 4964 XOR";
"2 1 18126 17999 4965 XOR";
"2 1 4965 4964 4963 AND";
"2 1 4963 17999 18000 XOR";
"2 1 18127 18000 4962 XOR";
"2 1 18063 18000 4053 XOR";
"2 1 16991 18000 4961 XOR";
"2 1 4962 4961 4960 AND";
"2 1 4960 18000 18001 XOR";
"2 1 18128 18001 4959 XOR";
"2 1 18064 18001 4052 XOR";
"2 1 16992 18001 4958 XOR";
"2 1 4959 4958 4957 AND";
"2 1 4957 18001 18002 XOR";
"2 1 16993 18002 4955 XOR";
"2 1 18129 18002 4956 XOR";
"2 1 4956 4955 4954 AND";
"2 1 4954 18002 18003 XOR";
"2 1 18066 18003 4050 XOR";
"2 1 18130 18003 4953 XOR";
"2 1 16994 18003 4952 XOR";
"2 1 4953 4952 4951 AND";
"2 1 18065 18002 4051 XOR";
"2 1 4951 18003 18004 XOR";
"2 1 18131 18004 4950 XOR";
"2 1 16995 18004 4949 XOR";
"2 1 18067 18004 4049 XOR";
"2 1 4950 4949 4948 AND";
"2 1 4948 18004 18005 XOR";
"2 1 18068 18005 4048 XOR";
"2 1 16996 18005 4946 XOR";
"2 1 18132 18005 4947 XOR";
"2 1 4947 4946 4945 AND";
"2 1 4945 18005 18006 XOR";
"2 1 18069 18006 4047 XOR";
"2 1 18133 18006 4944 XOR";
"2 1 16997 18006 4943 XOR";
"2 1 4944 4943 4942 AND";
"2 1 4942 18006 18007 XOR";
"2 1 18134 18007 4941 XOR";
"2 1 16998 18007 4940 XOR";
"2 1 4941 4940 4939 AND";
"2 1 18070 18007 4046 XOR";
"2 1 4939 18007 18008 XOR";
"2 1 16999 18008 4937 XOR";
"2 1 18135 18008 4938 XOR";
"2 1 4938 4937 4936 AND";
"2 1 4936 18008 18009 XOR";
"2 1 18072 18009 4044 XOR";
"2 1 18136 18009 4935 XOR";
"2 1 17000 18009 4934 XOR";
"2 1 4935 4934 4933 AND";
"2 1 18071 18008 4045 XOR";
"2 1 4933 18009 18010 XOR";
"2 1 18137 18010 4932 XOR";
"2 1 17001 18010 4931 XOR";
"2 1 18073 18010 4043 XOR";
"2 1 4932 4931 4930 AND";
"2 1 4930 18010 18011 XOR";
"2 1 17002 18011 4928 XOR";
"2 1 18074 18011 4042 XOR";
"2 1 18138 18011 4929 XOR";
"2 1 4929 4928 4927 AND";
"2 1 4927 18011 18012 XOR";
"2 1 18075 18012 4041 XOR";
"2 1 18139 18012 4926 XOR";
"2 1 17003 18012 4925 XOR";
"2 1 4926 4925 4924 AND";
"2 1 4924 18012 18013 XOR";
"2 1 17004 18013 4922 XOR";
"2 1 18076 18013 4040 XOR";
"2 1 18140 18013 4923 XOR";
"2 1 4923 4922 4921 AND";
"2 1 4921 18013 18014 XOR";
"2 1 18077 18014 4039 XOR";
"2 1 17005 18014 4919 XOR";
"2 1 18141 18014 4920 XOR";
"2 1 4920 4919 4918 AND";
"2 1 4918 18014 18015 XOR";
"2 1 17006 18015 4916 XOR";
"2 1 4096 16949 17832 XOR";
"2 1 4095 16950 17833 XOR";
"2 1 4094 16951 17834 XOR";
"2 1 4093 16952 17835 XOR";
"2 1 4092 16953 17836 XOR";
"2 1 4091 16954 17837 XOR";
"2 1 4090 16955 17838 XOR";
"2 1 4089 16956 17839 XOR";
"2 1 4088 16957 17840 XOR";
"2 1 4087 16958 17841 XOR";
"2 1 4086 16959 17842 XOR";
"2 1 4085 16960 17843 XOR";
"2 1 4084 16961 17844 XOR";
"2 1 4083 16962 17845 XOR";
"2 1 4082 16963 17846 XOR";
"2 1 4081 16964 17847 XOR";
"2 1 4080 16965 17848 XOR";
"2 1 4079 16966 17849 XOR";
"2 1 4078 16967 17850 XOR";
"2 1 4077 16968 17851 XOR";
"2 1 4076 16969 17852 XOR";
"2 1 4075 16970 17853 XOR";
"2 1 4074 16971 17854 XOR";
"2 1 4073 16972 17855 XOR";
"2 1 4072 16973 17856 XOR";
"2 1 4071 16974 17857 XOR";
"2 1 4070 16975 17858 XOR";
"2 1 4069 16976 17859 XOR";
"2 1 4068 16977 17860 XOR";
"2 1 4067 16978 17861 XOR";
"2 1 4066 16979 17862 XOR";
"2 1 4065 16980 17863 XOR";
"2 1 4064 16981 17864 XOR";
"2 1 4063 16982 17865 XOR";
"2 1 4062 16983 17866 XOR";
"2 1 4061 16984 17867 XOR";
"2 1 4060 16985 17868 XOR";
"2 1 4059 16986 17869 XOR";
"2 1 4058 16987 17870 XOR";
"2 1 4057 16988 17871 XOR";
"2 1 4056 16989 17872 XOR";
"2 1 4055 16990 17873 XOR";
"2 1 4054 16991 17874 XOR";
"2 1 4053 16992 17875 XOR";
"2 1 4052 16993 17876 XOR";
"2 1 4051 16994 17877 XOR";
"2 1 4050 16995 17878 XOR";
"2 1 4049 16996 17879 XOR";
"2 1 4048 16997 17880 XOR";
"2 1 4047 16998 17881 XOR";
"2 1 4046 16999 17882 XOR";
"2 1 4045 17000 17883 XOR";
"2 1 4044 17001 17884 XOR";
"2 1 4043 17002 17885 XOR";
"2 1 4042 17003 17886 XOR";
"2 1 4041 17004 17887 XOR";
"2 1 4040 17005 17888 XOR";
"2 1 4039 17006 17889 XOR";
"2 1 18019 17956 4097 XOR";
"2 1 4097 16948 17831 XOR";
"2 1 18266 18203 3976 XOR";
"2 1 3976 17006 18078 XOR";
"2 1 18078 18015 4038 XOR";
"2 1 4038 17007 17890 XOR";
"2 1 3976 16632 18142 XOR";
"2 1 18142 18015 4917 XOR";
"2 1 4917 4916 4915 AND";
"2 1 4915 18015 18016 XOR";
"2 1 18143 18016 4914 XOR";
"2 1 17007 18016 4913 XOR";
"2 1 18079 18016 4037 XOR";
"2 1 4037 17008 17891 XOR";
"2 1 4914 4913 4912 AND";
"2 1 4912 18016 18017 XOR";
"2 1 17008 18017 4910 XOR";
"2 1 18144 18017 4911 XOR";
"2 1 4911 4910 4909 AND";
"2 1 4909 18017 18018 XOR";
"2 1 18081 18018 191 XOR";
"2 1 18080 18017 4036 XOR";
"2 1 4036 17009 17892 XOR";
"1 1 191 16631 INV";
"2 1 16820 16631 17893 XOR";
"2 1 4098 16631 17894 XOR";
"2 1 16631 4535 17515 AND";
"2 1 4097 16631 17895 XOR";
"2 1 4096 16631 17896 XOR";
"2 1 4095 16631 17897 XOR";
"2 1 4094 16631 17898 XOR";
"2 1 4093 16631 17899 XOR";
"2 1 4092 16631 17900 XOR";
"2 1 4091 16631 17901 XOR";
"2 1 4090 16631 17902 XOR";
"2 1 4089 16631 17903 XOR";
"2 1 4088 16631 17904 XOR";
"2 1 4087 16631 17905 XOR";
"2 1 4086 16631 17906 XOR";
"2 1 4085 16631 17907 XOR";
"2 1 4084 16631 17908 XOR";
"2 1 4083 16631 17909 XOR";
"2 1 4082 16631 17910 XOR";
"2 1 4081 16631 17911 XOR";
"2 1 4080 16631 17912 XOR";
"2 1 4079 16631 17913 XOR";
"2 1 4078 16631 17914 XOR";
"2 1 4077 16631 17915 XOR";
"2 1 4076 16631 17916 XOR";
"2 1 4075 16631 17917 XOR";
"2 1 4074 16631 17918 XOR";
"2 1 4073 16631 17919 XOR";
"2 1 4072 16631 17920 XOR";
"2 1 4071 16631 17921 XOR";
"2 1 4070 16631 17922 XOR";
"2 1 4069 16631 17923 XOR";
"2 1 4068 16631 17924 XOR";
"2 1 4067 16631 17925 XOR";
"2 1 4066 16631 17926 XOR";
"2 1 4065 16631 17927 XOR";
"2 1 4064 16631 17928 XOR";
"2 1 4063 16631 17929 XOR";
"2 1 4062 16631 17930 XOR";
"2 1 4061 16631 17931 XOR";
"2 1 4060 16631 17932 XOR";
"2 1 4059 16631 17933 XOR";
"2 1 4058 16631 17934 XOR";
"2 1 4057 16631 17935 XOR";
"2 1 4056 16631 17936 XOR";
"2 1 4055 16631 17937 XOR";
"2 1 4054 16631 17938 XOR";
"2 1 4053 16631 17939 XOR";
"2 1 4052 16631 17940 XOR";
"2 1 4051 16631 17941 XOR";
"2 1 4050 16631 17942 XOR";
"2 1 4049 16631 17943 XOR";
"2 1 4048 16631 17944 XOR";
"2 1 4047 16631 17945 XOR";
"2 1 4046 16631 17946 XOR";
"2 1 4045 16631 17947 XOR";
"2 1 4044 16631 17948 XOR";
"2 1 4043 16631 17949 XOR";
"2 1 4042 16631 17950 XOR";
"2 1 4041 16631 17951 XOR";
"2 1 4040 16631 17952 XOR";
"2 1 4039 16631 17953 XOR";
"2 1 4038 16631 17954 XOR";
"2 1 4037 16631 17955 XOR";
"2 1 17893 16946 17767 AND";
"2 1 17830 17767 4160 XOR";
"2 1 16947 17767 4907 XOR";
"2 1 17894 17767 4908 XOR";
"2 1 4908 4907 4906 AND";
"2 1 4906 17767 17768 XOR";
"2 1 17831 17768 4159 XOR";
"2 1 17895 17768 4905 XOR";
"2 1 16948 17768 4904 XOR";
"2 1 4905 4904 4903 AND";
"2 1 4903 17768 17769 XOR";
"2 1 17896 17769 4902 XOR";
"2 1 17832 17769 4158 XOR";
"2 1 16949 17769 4901 XOR";
"2 1 4902 4901 4900 AND";
"2 1 4900 17769 17770 XOR";
"2 1 16950 17770 4898 XOR";
"2 1 17897 17770 4899 XOR";
"2 1 4899 4898 4897 AND";
"2 1 4897 17770 17771 XOR";
"2 1 17834 17771 4156 XOR";
"2 1 16951 17771 4895 XOR";
"2 1 17898 17771 4896 XOR";
"2 1 4896 4895 4894 AND";
"2 1 17833 17770 4157 XOR";
"2 1 4894 17771 17772 XOR";
"2 1 17835 17772 4155 XOR";
"2 1 17899 17772 4893 XOR";
"2 1 16952 17772 4892 XOR";
"2 1 4893 4892 4891 AND";
"2 1 4891 17772 17773 XOR";
"2 1 17836 17773 4154 XOR";
"2 1 16953 17773 4889 XOR";
"2 1 17900 17773 4890 XOR";
"2 1 4890 4889 4888 AND";
"2 1 4888 17773 17774 XOR";
"2 1 17837 17774 4153 XOR";
"2 1 17901 17774 4887 XOR";
"2 1 16954 17774 4886 XOR";
"2 1 4887 4886 4885 AND";
"2 1 4885 17774 17775 XOR";
"2 1 17902 17775 4884 XOR";
"2 1 17838 17775 4152 XOR";
"2 1 16955 17775 4883 XOR";
"2 1 4884 4883 4882 AND";
"2 1 4882 17775 17776 XOR";
"2 1 16956 17776 4880 XOR";
"2 1 17903 17776 4881 XOR";
"2 1 4881 4880 4879 AND";
"2 1 4879 17776 17777 XOR";
"2 1 17840 17777 4150 XOR";
"2 1 16957 17777 4877 XOR";
"2 1 17904 17777 4878 XOR";
"2 1 4878 4877 4876 AND";
"2 1 17839 17776 4151 XOR";
"2 1 4876 17777 17778 XOR";
"2 1 17841 17778 4149 XOR";
"2 1 17905 17778 4875 XOR";
"2 1 16958 17778 4874 XOR";
"2 1 4875 4874 4873 AND";
"2 1 4873 17778 17779 XOR";
"2 1 17842 17779 4148 XOR";
"2 1 16959 17779 4871 XOR";
"2 1 17906 17779 4872 XOR";
"2 1 4872 4871 4870 AND";
"2 1 4870 17779 17780 XOR";
"2 1 17843 17780 4147 XOR";
"2 1 17907 17780 4869 XOR";
"2 1 16960 17780 4868 XOR";
"2 1 4869 4868 4867 AND";
"2 1 4867 17780 17781 XOR";
"2 1 17908 17781 4866 XOR";
"2 1 17844 17781 4146 XOR";
"2 1 16961 17781 4865 XOR";
"2 1 4866 4865 4864 AND";
"2 1 4864 17781 17782 XOR";
"2 1 16962 17782 4862 XOR";
"2 1 17909 17782 4863 XOR";
"2 1 4863 4862 4861 AND";
"2 1 4861 17782 17783 XOR";
"2 1 17846 17783 4144 XOR";
"2 1 16963 17783 4859 XOR";
"2 1 17910 17783 4860 XOR";
"2 1 4860 4859 4858 AND";
"2 1 17845 17782 4145 XOR";
"2 1 4858 17783 17784 XOR";
"2 1 17847 17784 4143 XOR";
"2 1 17911 17784 4857 XOR";
"2 1 16964 17784 4856 XOR";
"2 1 4857 4856 4855 AND";
"2 1 4855 17784 17785 XOR";
"2 1 17848 17785 4142 XOR";
"2 1 16965 17785 4853 XOR";
"2 1 17912 17785 4854 XOR";
"2 1 4854 4853 4852 AND";
"2 1 4852 17785 17786 XOR";
"2 1 17849 17786 4141 XOR";
"2 1 17913 17786 4851 XOR";
"2 1 16966 17786 4850 XOR";
"2 1 4851 4850 4849 AND";
"2 1 4849 17786 17787 XOR";
"2 1 17914 17787 4848 XOR";
"2 1 17850 17787 4140 XOR";
"2 1 16967 17787 4847 XOR";
"2 1 4848 4847 4846 AND";
"2 1 4846 17787 17788 XOR";
"2 1 16968 17788 4844 XOR";
"2 1 17915 17788 4845 XOR";
"2 1 4845 4844 4843 AND";
"2 1 4843 17788 17789 XOR";
"2 1 17852 17789 4138 XOR";
"2 1 16969 17789 4841 XOR";
"2 1 17916 17789 4842 XOR";
"2 1 4842 4841 4840 AND";
"2 1 17851 17788 4139 XOR";
"2 1 4840 17789 17790 XOR";
"2 1 17853 17790 4137 XOR";
"2 1 17917 17790 4839 XOR";
"2 1 16970 17790 4838 XOR";
"2 1 4839 4838 4837 AND";
"2 1 4837 17790 17791 XOR";
"2 1 17854 17791 4136 XOR";
"2 1 16971 17791 4835 XOR";
"2 1 17918 17791 4836 XOR";
"2 1 4836 4835 4834 AND";
"2 1 4834 17791 17792 XOR";
"2 1 17855 17792 4135 XOR";
"2 1 17919 17792 4833 XOR";
"2 1 16972 17792 4832 XOR";
"2 1 4833 4832 4831 AND";
"2 1 4831 17792 17793 XOR";
"2 1 17920 17793 4830 XOR";
"2 1 17856 17793 4134 XOR";
"2 1 16973 17793 4829 XOR";
"2 1 4830 4829 4828 AND";
"2 1 4828 17793 17794 XOR";
"2 1 16974 17794 4826 XOR";
"2 1 17921 17794 4827 XOR";
"2 1 4827 4826 4825 AND";
"2 1 4825 17794 17795 XOR";
"2 1 17858 17795 4132 XOR";
"2 1 16975 17795 4823 XOR";
"2 1 17922 17795 4824 XOR";
"2 1 4824 4823 4822 AND";
"2 1 17857 17794 4133 XOR";
"2 1 4822 17795 17796 XOR";
"2 1 17859 17796 4131 XOR";
"2 1 17923 17796 4821 XOR";
"2 1 16976 17796 4820 XOR";
"2 1 4821 4820 4819 AND";
"2 1 4819 17796 17797 XOR";
"2 1 17860 17797 4130 XOR";
"2 1 16977 17797 4817 XOR";
"2 1 17924 17797 4818 XOR";
"2 1 4818 4817 4816 AND";
"2 1 4816 17797 17798 XOR";
"2 1 17861 17798 4129 XOR";
"2 1 17925 17798 4815 XOR";
"2 1 16978 17798 4814 XOR";
"2 1 4815 4814 4813 AND";
"2 1 4813 17798 17799 XOR";
"2 1 17926 17799 4812 XOR";
"2 1 17862 17799 4128 XOR";
"2 1 16979 17799 4811 XOR";
"2 1 4812 4811 4810 AND";
"2 1 4810 17799 17800 XOR";
"2 1 16980 17800 4808 XOR";
"2 1 17927 17800 4809 XOR";
"2 1 4809 4808 4807 AND";
"2 1 4807 17800 17801 XOR";
"2 1 17864 17801 4126 XOR";
"2 1 16981 17801 4805 XOR";
"2 1 17928 17801 4806 XOR";
"2 1 4806 4805 4804 AND";
"2 1 17863 17800 4127 XOR";
"2 1 4804 17801 17802 XOR";
"2 1 17865 17802 4125 XOR";
"2 1 17929 17802 4803 XOR";
"2 1 16982 17802 4802 XOR";
"2 1 4803 4802 4801 AND";
"2 1 4801 17802 17803 XOR";
"2 1 17866 17803 4124 XOR";
"2 1 16983 17803 4799 XOR";
"2 1 17930 17803 4800 XOR";
"2 1 4800 4799 4798 AND";
"2 1 4798 17803 17804 XOR";
"2 1 17867 17804 4123 XOR";
"2 1 17931 17804 4797 XOR";
"2 1 16984 17804 4796 XOR";
"2 1 4797 4796 4795 AND";
"2 1 4795 17804 17805 XOR";
"2 1 17932 17805 4794 XOR";
"2 1 17868 17805 4122 XOR";
"2 1 16985 17805 4793 XOR";
"2 1 4794 4793 4792 AND";
"2 1 4792 17805 17806 XOR";
"2 1 16986 17806 4790 XOR";
"2 1 17933 17806 4791 XOR";
"2 1 4791 4790 4789 AND";
"2 1 4789 17806 17807 XOR";
"2 1 17870 17807 4120 XOR";
"2 1 16987 17807 4787 XOR";
"2 1 17934 17807 4788 XOR";
"2 1 4788 4787 4786 AND";
"2 1 17869 17806 4121 XOR";
"2 1 4786 17807 17808 XOR";
"2 1 17871 17808 4119 XOR";
"2 1 17935 17808 4785 XOR";
"2 1 16988 17808 4784 XOR";
"2 1 4785 4784 4783 AND";
"2 1 4783 17808 17809 XOR";
"2 1 17872 17809 4118 XOR";
"2 1 16989 17809 4781 XOR";
"2 1 17936 17809 4782 XOR";
"2 1 4782 4781 4780 AND";
"2 1 4780 17809 17810 XOR";
"2 1 17873 17810 4117 XOR";
"2 1 17937 17810 4779 XOR";
"2 1 16990 17810 4778 XOR";
"2 1 4779 4778 4777 AND";
"2 1 4777 17810 17811 XOR";
"2 1 17938 17811 4776 XOR";
"2 1 17874 17811 4116 XOR";
"2 1 16991 17811 4775 XOR";
"2 1 4776 4775 4774 AND";
"2 1 4774 17811 17812 XOR";
"2 1 16992 17812 4772 XOR";
"2 1 17939 17812 4773 XOR";
"2 1 4773 4772 4771 AND";
"2 1 4771 17812 17813 XOR";
"2 1 17876 17813 4114 XOR";
"2 1 16993 17813 4769 XOR";
"2 1 17940 17813 4770 XOR";
"2 1 4770 4769 4768 AND";
"2 1 17875 17812 4115 XOR";
"2 1 4768 17813 17814 XOR";
"2 1 17877 17814 4113 XOR";
"2 1 17941 17814 4767 XOR";
"2 1 16994 17814 4766 XOR";
"2 1 4767 4766 4765 AND";
"2 1 4765 17814 17815 XOR";
"2 1 17878 17815 4112 XOR";
"2 1 16995 17815 4763 XOR";
"2 1 17942 17815 4764 XOR";
"2 1 4764 4763 4762 AND";
"2 1 4762 17815 17816 XOR";
"2 1 17879 17816 4111 XOR";
"2 1 17943 17816 4761 XOR";
"2 1 16996 17816 4760 XOR";
"2 1 4761 4760 4759 AND";
"2 1 4759 17816 17817 XOR";
"2 1 17944 17817 4758 XOR";
"2 1 17880 17817 4110 XOR";
"2 1 16997 17817 4757 XOR";
"2 1 4758 4757 4756 AND";
"2 1 4756 17817 17818 XOR";
"2 1 16998 17818 4754 XOR";
"2 1 17945 17818 4755 XOR";
"2 1 4755 4754 4753 AND";
"2 1 4753 17818 17819 XOR";
"2 1 17882 17819 4108 XOR";
"2 1 16999 17819 4751 XOR";
"2 1 17946 17819 4752 XOR";
"2 1 4752 4751 4750 AND";
"2 1 17881 17818 4109 XOR";
"2 1 4750 17819 17820 XOR";
"2 1 17883 17820 4107 XOR";
"2 1 17947 17820 4749 XOR";
"2 1 17000 17820 4748 XOR";
"2 1 4749 4748 4747 AND";
"2 1 4747 17820 17821 XOR";
"2 1 17884 17821 4106 XOR";
"2 1 17001 17821 4745 XOR";
"2 1 17948 17821 4746 XOR";
"2 1 4746 4745 4744 AND";
"2 1 4744 17821 17822 XOR";
"2 1 17002 17822 4742 XOR";
"2 1 17885 17822 4105 XOR";
"2 1 17949 17822 4743 XOR";
"2 1 4743 4742 4741 AND";
"2 1 4741 17822 17823 XOR";
"2 1 17950 17823 4740 XOR";
"2 1 17886 17823 4104 XOR";
"2 1 17003 17823 4739 XOR";
"2 1 4740 4739 4738 AND";
"2 1 4738 17823 17824 XOR";
"2 1 17887 17824 4103 XOR";
"2 1 17004 17824 4736 XOR";
"2 1 17951 17824 4737 XOR";
"2 1 4737 4736 4735 AND";
"2 1 4735 17824 17825 XOR";
"2 1 17888 17825 4102 XOR";
"2 1 17005 17825 4733 XOR";
"2 1 17952 17825 4734 XOR";
"2 1 4734 4733 4732 AND";
"2 1 4732 17825 17826 XOR";
"2 1 17889 17826 4101 XOR";
"2 1 17953 17826 4731 XOR";
"2 1 17006 17826 4730 XOR";
"2 1 4731 4730 4729 AND";
"2 1 4729 17826 17827 XOR";
"2 1 17954 17827 4728 XOR";
"2 1 17890 17827 4100 XOR";
"2 1 17007 17827 4727 XOR";
"2 1 4728 4727 4726 AND";
"2 1 4726 17827 17828 XOR";
"2 1 17008 17828 4724 XOR";
"2 1 17891 17828 4099 XOR";
"2 1 4099 17009 4722 XOR";
"2 1 17955 17828 4725 XOR";
"2 1 4725 4724 4723 AND";
"2 1 4723 17828 17829 XOR";
"2 1 17892 17829 192 XOR";
"1 1 192 16630 INV";
"2 1 16630 4535 17514 AND";
"2 1 4160 16630 17706 XOR";
"2 1 4159 16630 17707 XOR";
"2 1 16819 16630 17704 XOR";
"2 1 4155 16630 17711 XOR";
"2 1 4156 16630 17710 XOR";
"2 1 4158 16630 17708 XOR";
"2 1 4151 16630 17715 XOR";
"2 1 4139 16630 17727 XOR";
"2 1 4143 16630 17723 XOR";
"2 1 4147 16630 17719 XOR";
"2 1 4148 16630 17718 XOR";
"2 1 4135 16630 17731 XOR";
"2 1 4136 16630 17730 XOR";
"2 1 4144 16630 17722 XOR";
"2 1 4140 16630 17726 XOR";
"2 1 4142 16630 17724 XOR";
"2 1 4138 16630 17728 XOR";
"2 1 4132 16630 17734 XOR";
"2 1 4134 16630 17732 XOR";
"2 1 4131 16630 17735 XOR";
"2 1 4127 16630 17739 XOR";
"2 1 4130 16630 17736 XOR";
"2 1 4128 16630 17738 XOR";
"2 1 4120 16630 17746 XOR";
"2 1 4123 16630 17743 XOR";
"2 1 4126 16630 17740 XOR";
"2 1 4124 16630 17742 XOR";
"2 1 4116 16630 17750 XOR";
"2 1 4114 16630 17752 XOR";
"2 1 4118 16630 17748 XOR";
"2 1 4122 16630 17744 XOR";
"2 1 4112 16630 17754 XOR";
"2 1 4110 16630 17756 XOR";
"2 1 4107 16630 17759 XOR";
"2 1 4103 16630 17763 XOR";
"2 1 4104 16630 17762 XOR";
"2 1 17704 16946 17641 AND";
"2 1 16947 17641 4720 XOR";
"2 1 4106 16630 17760 XOR";
"2 1 4100 16630 17766 XOR";
"2 1 4102 16630 17764 XOR";
"2 1 4152 16630 17714 XOR";
"2 1 4154 16630 17712 XOR";
"2 1 4150 16630 17716 XOR";
"2 1 4146 16630 17720 XOR";
"2 1 4119 16630 17747 XOR";
"2 1 4115 16630 17751 XOR";
"2 1 4111 16630 17755 XOR";
"2 1 4108 16630 17758 XOR";
"2 1 4101 16630 17765 XOR";
"2 1 4105 16630 17761 XOR";
"2 1 4109 16630 17757 XOR";
"2 1 4113 16630 17753 XOR";
"2 1 4117 16630 17749 XOR";
"2 1 4121 16630 17745 XOR";
"2 1 4125 16630 17741 XOR";
"2 1 4129 16630 17737 XOR";
"2 1 4133 16630 17733 XOR";
"2 1 4137 16630 17729 XOR";
"2 1 4141 16630 17725 XOR";
"2 1 4145 16630 17721 XOR";
"2 1 4149 16630 17717 XOR";
"2 1 4153 16630 17713 XOR";
"2 1 4157 16630 17709 XOR";
"2 1 4161 16630 17705 XOR";
"2 1 17705 17641 4721 XOR";
"2 1 4721 4720 4719 AND";
"2 1 4719 17641 17642 XOR";
"2 1 17706 17642 4718 XOR";
"2 1 16948 17642 4717 XOR";
"2 1 4718 4717 4716 AND";
"2 1 4716 17642 17643 XOR";
"2 1 17707 17643 4715 XOR";
"2 1 16949 17643 4714 XOR";
"2 1 4715 4714 4713 AND";
"2 1 4713 17643 17644 XOR";
"2 1 16950 17644 4711 XOR";
"2 1 17708 17644 4712 XOR";
"2 1 4712 4711 4710 AND";
"2 1 4710 17644 17645 XOR";
"2 1 16951 17645 4708 XOR";
"2 1 17709 17645 4709 XOR";
"2 1 4709 4708 4707 AND";
"2 1 4707 17645 17646 XOR";
"2 1 17710 17646 4706 XOR";
"2 1 16952 17646 4705 XOR";
"2 1 4706 4705 4704 AND";
"2 1 4704 17646 17647 XOR";
"2 1 16953 17647 4702 XOR";
"2 1 17711 17647 4703 XOR";
"2 1 4703 4702 4701 AND";
"2 1 4701 17647 17648 XOR";
"2 1 16954 17648 4699 XOR";
"2 1 17712 17648 4700 XOR";
"2 1 4700 4699 4698 AND";
"2 1 4698 17648 17649 XOR";
"2 1 16955 17649 4696 XOR";
"2 1 17713 17649 4697 XOR";
"2 1 4697 4696 4695 AND";
"2 1 4695 17649 17650 XOR";
"2 1 17714 17650 4694 XOR";
"2 1 16956 17650 4693 XOR";
"2 1 4694 4693 4692 AND";
"2 1 4692 17650 17651 XOR";
"2 1 16957 17651 4690 XOR";
"2 1 17715 17651 4691 XOR";
"2 1 4691 4690 4689 AND";
"2 1 4689 17651 17652 XOR";
"2 1 16958 17652 4687 XOR";
"2 1 17716 17652 4688 XOR";
"2 1 4688 4687 4686 AND";
"2 1 4686 17652 17653 XOR";
"2 1 17717 17653 4685 XOR";
"2 1 16959 17653 4684 XOR";
"2 1 4685 4684 4683 AND";
"2 1 4683 17653 17654 XOR";
"2 1 17718 17654 4682 XOR";
"2 1 16960 17654 4681 XOR";
"2 1 4682 4681 4680 AND";
"2 1 4680 17654 17655 XOR";
"2 1 16961 17655 4678 XOR";
"2 1 17719 17655 4679 XOR";
"2 1 4679 4678 4677 AND";
"2 1 4677 17655 17656 XOR";
"2 1 17720 17656 4676 XOR";
"2 1 16962 17656 4675 XOR";
"2 1 4676 4675 4674 AND";
"2 1 4674 17656 17657 XOR";
"2 1 17721 17657 4673 XOR";
"2 1 16963 17657 4672 XOR";
"2 1 4673 4672 4671 AND";
"2 1 4671 17657 17658 XOR";
"2 1 16964 17658 4669 XOR";
"2 1 17722 17658 4670 XOR";
"2 1 4670 4669 4668 AND";
"2 1 4668 17658 17659 XOR";
"2 1 16965 17659 4666 XOR";
"2 1 17723 17659 4667 XOR";
"2 1 4667 4666 4665 AND";
"2 1 4665 17659 17660 XOR";
"2 1 16966 17660 4663 XOR";
"2 1 17724 17660 4664 XOR";
"2 1 4664 4663 4662 AND";
"2 1 4662 17660 17661 XOR";
"2 1 17725 17661 4661 XOR";
"2 1 16967 17661 4660 XOR";
"2 1 4661 4660 4659 AND";
"2 1 4659 17661 17662 XOR";
"2 1 17726 17662 4658 XOR";
"2 1 16968 17662 4657 XOR";
"2 1 4658 4657 4656 AND";
"2 1 4656 17662 17663 XOR";
"2 1 17727 17663 4655 XOR";
"2 1 16969 17663 4654 XOR";
"2 1 4655 4654 4653 AND";
"2 1 4653 17663 17664 XOR";
"2 1 16970 17664 4651 XOR";
"2 1 17728 17664 4652 XOR";
"2 1 4652 4651 4650 AND";
"2 1 4650 17664 17665 XOR";
"2 1 17729 17665 4649 XOR";
"2 1 16971 17665 4648 XOR";
"2 1 4649 4648 4647 AND";
"2 1 4647 17665 17666 XOR";
"2 1 17730 17666 4646 XOR";
"2 1 16972 17666 4645 XOR";
"2 1 4646 4645 4644 AND";
"2 1 4644 17666 17667 XOR";
"2 1 16973 17667 4642 XOR";
"2 1 17731 17667 4643 XOR";
"2 1 4643 4642 4641 AND";
"2 1 4641 17667 17668 XOR";
"2 1 17732 17668 4640 XOR";
"2 1 16974 17668 4639 XOR";
"2 1 4640 4639 4638 AND";
"2 1 4638 17668 17669 XOR";
"2 1 16975 17669 4636 XOR";
"2 1 17733 17669 4637 XOR";
"2 1 4637 4636 4635 AND";
"2 1 4635 17669 17670 XOR";
"2 1 17734 17670 4634 XOR";
"2 1 16976 17670 4633 XOR";
"2 1 4634 4633 4632 AND";
"2 1 4632 17670 17671 XOR";
"2 1 17735 17671 4631 XOR";
"2 1 16691 4535 17575 AND";
"2 1 16689 4535 17573 AND";
"2 1 16687 4535 17571 AND";
"2 1 16685 4535 17569 AND";
"2 1 16683 4535 17567 AND";
"2 1 16681 4535 17565 AND";
"2 1 16679 4535 17563 AND";
"2 1 16677 4535 17561 AND";
"2 1 16675 4535 17559 AND";
"2 1 16673 4535 17557 AND";
"2 1 16671 4535 17555 AND";
"2 1 16669 4535 17553 AND";
"2 1 16667 4535 17551 AND";
"2 1 16665 4535 17549 AND";
"2 1 16663 4535 17547 AND";
"2 1 16977 17671 4630 XOR";
"2 1 4631 4630 4629 AND";
"2 1 4629 17671 17672 XOR";
"2 1 16978 17672 4627 XOR";
"2 1 17736 17672 4628 XOR";
"2 1 4628 4627 4626 AND";
"2 1 4626 17672 17673 XOR";
"2 1 16979 17673 4624 XOR";
"2 1 17737 17673 4625 XOR";
"2 1 4625 4624 4623 AND";
"2 1 4623 17673 17674 XOR";
"2 1 17738 17674 4622 XOR";
"2 1 16980 17674 4621 XOR";
"2 1 4622 4621 4620 AND";
"2 1 4620 17674 17675 XOR";
"2 1 16981 17675 4618 XOR";
"2 1 17739 17675 4619 XOR";
"2 1 4619 4618 4617 AND";
"2 1 4617 17675 17676 XOR";
"2 1 17740 17676 4616 XOR";
"2 1 16982 17676 4615 XOR";
"2 1 4616 4615 4614 AND";
"2 1 4614 17676 17677 XOR";
"2 1 17741 17677 4613 XOR";
"2 1 16983 17677 4612 XOR";
"2 1 4613 4612 4611 AND";
"2 1 4611 17677 17678 XOR";
"2 1 17742 17678 4610 XOR";
"2 1 16984 17678 4609 XOR";
"2 1 4610 4609 4608 AND";
"2 1 4608 17678 17679 XOR";
"2 1 17743 17679 4607 XOR";
"2 1 16985 17679 4606 XOR";
"2 1 4607 4606 4605 AND";
"2 1 4605 17679 17680 XOR";
"2 1 17744 17680 4604 XOR";
"2 1 16986 17680 4603 XOR";
"2 1 4604 4603 4602 AND";
"2 1 4602 17680 17681 XOR";
"2 1 17745 17681 4601 XOR";
"2 1 16987 17681 4600 XOR";
"2 1 4601 4600 4599 AND";
"2 1 4599 17681 17682 XOR";
"2 1 16988 17682 4597 XOR";
"2 1 17746 17682 4598 XOR";
"2 1 4598 4597 4596 AND";
"2 1 4596 17682 17683 XOR";
"2 1 16989 17683 4594 XOR";
"2 1 17747 17683 4595 XOR";
"2 1 4595 4594 4593 AND";
"2 1 4593 17683 17684 XOR";
"2 1 17748 17684 4592 XOR";
"2 1 16990 17684 4591 XOR";
"2 1 4592 4591 4590 AND";
"2 1 4590 17684 17685 XOR";
"2 1 17749 17685 4589 XOR";
"2 1 16991 17685 4588 XOR";
"2 1 4589 4588 4587 AND";
"2 1 4587 17685 17686 XOR";
"2 1 16992 17686 4585 XOR";
"2 1 17750 17686 4586 XOR";
"2 1 4586 4585 4584 AND";
"2 1 4584 17686 17687 XOR";
"2 1 16993 17687 4582 XOR";
"2 1 17751 17687 4583 XOR";
"2 1 4583 4582 4581 AND";
"2 1 4581 17687 17688 XOR";
"2 1 17752 17688 4580 XOR";
"2 1 16994 17688 4579 XOR";
"2 1 4580 4579 4578 AND";
"2 1 4578 17688 17689 XOR";
"2 1 16995 17689 4576 XOR";
"2 1 17753 17689 4577 XOR";
"2 1 4577 4576 4575 AND";
"2 1 4575 17689 17690 XOR";
"2 1 16996 17690 4573 XOR";
"2 1 17754 17690 4574 XOR";
"2 1 4574 4573 4572 AND";
"2 1 4572 17690 17691 XOR";
"2 1 16997 17691 4570 XOR";
"2 1 17755 17691 4571 XOR";
"2 1 4571 4570 4569 AND";
"2 1 4569 17691 17692 XOR";
"2 1 17756 17692 4568 XOR";
"2 1 16998 17692 4567 XOR";
"2 1 4568 4567 4566 AND";
"2 1 4566 17692 17693 XOR";
"2 1 16999 17693 4564 XOR";
"2 1 17757 17693 4565 XOR";
"2 1 4565 4564 4563 AND";
"2 1 4563 17693 17694 XOR";
"2 1 17000 17694 4561 XOR";
"2 1 17758 17694 4562 XOR";
"2 1 4562 4561 4560 AND";
"2 1 4560 17694 17695 XOR";
"2 1 17759 17695 4559 XOR";
"2 1 17001 17695 4558 XOR";
"2 1 4559 4558 4557 AND";
"2 1 4557 17695 17696 XOR";
"2 1 17002 17696 4555 XOR";
"2 1 17760 17696 4556 XOR";
"2 1 4556 4555 4554 AND";
"2 1 4554 17696 17697 XOR";
"2 1 17761 17697 4553 XOR";
"2 1 17003 17697 4552 XOR";
"2 1 4553 4552 4551 AND";
"2 1 4551 17697 17698 XOR";
"2 1 17762 17698 4550 XOR";
"2 1 17004 17698 4549 XOR";
"2 1 4550 4549 4548 AND";
"2 1 4548 17698 17699 XOR";
"2 1 17763 17699 4547 XOR";
"2 1 17005 17699 4546 XOR";
"2 1 4547 4546 4545 AND";
"2 1 4545 17699 17700 XOR";
"2 1 17764 17700 4544 XOR";
"2 1 17006 17700 4543 XOR";
"2 1 4544 4543 4542 AND";
"2 1 4542 17700 17701 XOR";
"2 1 17007 17701 4540 XOR";
"2 1 17765 17701 4541 XOR";
"2 1 4541 4540 4539 AND";
"2 1 4539 17701 17702 XOR";
"2 1 17766 17702 4538 XOR";
"2 1 17008 17702 4537 XOR";
"2 1 4538 4537 4536 AND";
"2 1 4536 17702 17703 XOR";
"2 1 4722 17703 4162 XOR";
"2 1 192 4162 4534 XOR";
"2 1 4534 4162 4533 AND";
"2 1 4533 4162 17388 XOR";
"2 1 16631 17388 17451 XOR";
"1 1 4162 16566 INV";
"2 1 16566 128 17577 AND";
"1 1 17451 16567 INV";
"2 1 16566 4535 17513 AND";
"2 1 17577 17513 29990 XOR";
"2 1 16630 4162 17450 XOR";
"1 1 17450 16629 INV";
"2 1 16629 128 17578 AND";
"2 1 17578 17514 29991 XOR";
"2 1 191 17388 4532 XOR";
"2 1 4532 17388 4531 AND";
"2 1 4531 17388 17389 XOR";
"2 1 190 17389 4530 XOR";
"2 1 16632 17389 17452 XOR";
"2 1 4530 17389 4529 AND";
"2 1 4529 17389 17390 XOR";
"2 1 16633 17390 17453 XOR";
"2 1 189 17390 4528 XOR";
"1 1 17452 16568 INV";
"2 1 16568 128 17580 AND";
"1 1 17453 16569 INV";
"2 1 16569 128 17581 AND";
"2 1 17581 17517 29994 XOR";
"2 1 17580 17516 29993 XOR";
"2 1 4528 17390 4527 AND";
"2 1 4527 17390 17391 XOR";
"2 1 188 17391 4526 XOR";
"2 1 4526 17391 4525 AND";
"2 1 4525 17391 17392 XOR";
"2 1 16634 17391 17454 XOR";
"2 1 187 17392 4524 XOR";
"2 1 4524 17392 4523 AND";
"1 1 17454 16570 INV";
"2 1 16570 128 17582 AND";
"2 1 16635 17392 17455 XOR";
"1 1 17455 16571 INV";
"2 1 4523 17392 17393 XOR";
"2 1 16636 17393 17456 XOR";
"1 1 17456 16572 INV";
"2 1 16572 128 17584 AND";
"2 1 17584 17520 29997 XOR";
"2 1 186 17393 4522 XOR";
"2 1 4522 17393 4521 AND";
"2 1 4521 17393 17394 XOR";
"2 1 185 17394 4520 XOR";
"2 1 4520 17394 4519 AND";
"2 1 4519 17394 17395 XOR";
"2 1 184 17395 4518 XOR";
"2 1 16638 17395 17458 XOR";
"2 1 16637 17394 17457 XOR";
"1 1 17457 16573 INV";
"1 1 17458 16574 INV";
"2 1 16573 128 17585 AND";
"2 1 4518 17395 4517 AND";
"2 1 4517 17395 17396 XOR";
"2 1 16639 17396 17459 XOR";
"2 1 183 17396 4516 XOR";
"2 1 4516 17396 4515 AND";
"2 1 4515 17396 17397 XOR";
"2 1 16640 17397 17460 XOR";
"2 1 182 17397 4514 XOR";
"1 1 17459 16575 INV";
"2 1 16575 128 17587 AND";
"2 1 17587 17523 30000 XOR";
"1 1 17460 16576 INV";
"2 1 4514 17397 4513 AND";
"2 1 4513 17397 17398 XOR";
"2 1 181 17398 4512 XOR";
"2 1 16641 17398 17461 XOR";
"2 1 4512 17398 4511 AND";
"2 1 4511 17398 17399 XOR";
"2 1 180 17399 4510 XOR";
"2 1 4510 17399 4509 AND";
"1 1 17461 16577 INV";
"2 1 16642 17399 17462 XOR";
"1 1 17462 16578 INV";
"2 1 17585 17521 29998 XOR";
"2 1 16578 128 17590 AND";
"2 1 17590 17526 30003 XOR";
"2 1 17582 17518 29995 XOR";
"2 1 16576 128 17588 AND";
"2 1 17588 17524 30001 XOR";
"2 1 16577 128 17589 AND";
"2 1 17589 17525 30002 XOR";
"2 1 16571 128 17583 AND";
"2 1 17583 17519 29996 XOR";
"2 1 16574 128 17586 AND";
"2 1 16567 128 17579 AND";
"2 1 17579 17515 29992 XOR";
"2 1 17586 17522 29999 XOR";
"2 1 4509 17399 17400 XOR";
"2 1 16643 17400 17463 XOR";
"1 1 17463 16579 INV";
"2 1 16579 128 17591 AND";
"2 1 17591 17527 30004 XOR";
"2 1 179 17400 4508 XOR";
"2 1 4508 17400 4507 AND";
"2 1 4507 17400 17401 XOR";
"2 1 16644 17401 17464 XOR";
"2 1 178 17401 4506 XOR";
"2 1 4506 17401 4505 AND";
"2 1 4505 17401 17402 XOR";
"2 1 16645 17402 17465 XOR";
"1 1 17464 16580 INV";
"1 1 17465 16581 INV";
"2 1 16580 128 17592 AND";
"2 1 177 17402 4504 XOR";
"2 1 17592 17528 30005 XOR";
"2 1 4504 17402 4503 AND";
"2 1 16581 128 17593 AND";
"2 1 17593 17529 30006 XOR";
"2 1 4503 17402 17403 XOR";
"2 1 176 17403 4502 XOR";
"2 1 4502 17403 4501 AND";
"2 1 4501 17403 17404 XOR";
"2 1 175 17404 4500 XOR";
"2 1 16646 17403 17466 XOR";
"1 1 17466 16582 INV";
"2 1 16582 128 17594 AND";
"2 1 17594 17530 30007 XOR";
"2 1 4500 17404 4499 AND";
"2 1 4499 17404 17405 XOR";
"2 1 16648 17405 17468 XOR";
"1 1 17468 16584 INV";
"2 1 16584 128 17596 AND";
"2 1 174 17405 4498 XOR";
"2 1 4498 17405 4497 AND";
"2 1 4497 17405 17406 XOR";
"2 1 173 17406 4496 XOR";
"2 1 4496 17406 4495 AND";
"2 1 16649 17406 17469 XOR";
"1 1 17469 16585 INV";
"2 1 16585 128 17597 AND";
"2 1 17597 17533 30010 XOR";
"2 1 4495 17406 17407 XOR";
"2 1 16650 17407 17470 XOR";
"2 1 172 17407 4494 XOR";
"2 1 4494 17407 4493 AND";
"2 1 4493 17407 17408 XOR";
"2 1 16651 17408 17471 XOR";
"1 1 17470 16586 INV";
"1 1 17471 16587 INV";
"2 1 16587 128 17599 AND";
"2 1 171 17408 4492 XOR";
"2 1 4492 17408 4491 AND";
"2 1 4491 17408 17409 XOR";
"2 1 16652 17409 17472 XOR";
"1 1 17472 16588 INV";
"2 1 170 17409 4490 XOR";
"2 1 4490 17409 4489 AND";
"2 1 4489 17409 17410 XOR";
"2 1 16653 17410 17473 XOR";
"2 1 169 17410 4488 XOR";
"2 1 4488 17410 4487 AND";
"2 1 4487 17410 17411 XOR";
"2 1 168 17411 4486 XOR";
"1 1 17473 16589 INV";
"2 1 16589 128 17601 AND";
"2 1 17601 17537 30014 XOR";
"2 1 16588 128 17600 AND";
"2 1 17599 17535 30012 XOR";
"2 1 16654 17411 17474 XOR";
"1 1 17474 16590 INV";
"2 1 16590 128 17602 AND";
"2 1 17602 17538 30015 XOR";
"2 1 16647 17404 17467 XOR";
"1 1 17467 16583 INV";
"2 1 16583 128 17595 AND";
"2 1 17595 17531 30008 XOR";
"2 1 4486 17411 4485 AND";
"2 1 4485 17411 17412 XOR";
"2 1 167 17412 4484 XOR";
"2 1 4484 17412 4483 AND";
"2 1 4483 17412 17413 XOR";
"2 1 16656 17413 17476 XOR";
"1 1 17476 16592 INV";
"2 1 16655 17412 17475 XOR";
"1 1 17475 16591 INV";
"2 1 16591 128 17603 AND";
"2 1 166 17413 4482 XOR";
"2 1 4482 17413 4481 AND";
"2 1 4481 17413 17414 XOR";
"2 1 16657 17414 17477 XOR";
"1 1 17477 16593 INV";
"2 1 16593 128 17605 AND";
"2 1 165 17414 4480 XOR";
"2 1 4480 17414 4479 AND";
"2 1 4479 17414 17415 XOR";
"2 1 164 17415 4478 XOR";
"2 1 4478 17415 4477 AND";
"2 1 4477 17415 17416 XOR";
"2 1 16659 17416 17479 XOR";
"1 1 17479 16595 INV";
"2 1 17605 17541 30018 XOR";
"2 1 163 17416 4476 XOR";
"2 1 4476 17416 4475 AND";
"2 1 4475 17416 17417 XOR";
"2 1 16660 17417 17480 XOR";
"1 1 17480 16596 INV";
"2 1 16596 128 17608 AND";
"2 1 17608 17544 30021 XOR";
"2 1 162 17417 4474 XOR";
"2 1 16595 128 17607 AND";
"2 1 16592 128 17604 AND";
"2 1 17604 17540 30017 XOR";
"2 1 4474 17417 4473 AND";
"2 1 4473 17417 17418 XOR";
"2 1 161 17418 4472 XOR";
"2 1 4472 17418 4471 AND";
"2 1 4471 17418 17419 XOR";
"2 1 160 17419 4470 XOR";
"2 1 16662 17419 17482 XOR";
"1 1 17482 16598 INV";
"2 1 16598 128 17610 AND";
"2 1 4470 17419 4469 AND";
"2 1 4469 17419 17420 XOR";
"2 1 159 17420 4468 XOR";
"2 1 4468 17420 4467 AND";
"2 1 16663 17420 17483 XOR";
"1 1 17483 16599 INV";
"2 1 16599 128 17611 AND";
"2 1 17611 17547 30024 XOR";
"2 1 4467 17420 17421 XOR";
"2 1 16664 17421 17484 XOR";
"1 1 17484 16600 INV";
"2 1 158 17421 4466 XOR";
"2 1 4466 17421 4465 AND";
"2 1 16600 128 17612 AND";
"2 1 17612 17548 30025 XOR";
"2 1 4465 17421 17422 XOR";
"2 1 157 17422 4464 XOR";
"2 1 4464 17422 4463 AND";
"2 1 4463 17422 17423 XOR";
"2 1 16666 17423 17486 XOR";
"1 1 17486 16602 INV";
"2 1 16602 128 17614 AND";
"2 1 16665 17422 17485 XOR";
"1 1 17485 16601 INV";
"2 1 16601 128 17613 AND";
"2 1 17613 17549 30026 XOR";
"2 1 156 17423 4462 XOR";
"2 1 4462 17423 4461 AND";
"2 1 4461 17423 17424 XOR";
"2 1 16667 17424 17487 XOR";
"1 1 17487 16603 INV";
"2 1 16603 128 17615 AND";
"2 1 17615 17551 30028 XOR";
"2 1 155 17424 4460 XOR";
"2 1 4460 17424 4459 AND";
"2 1 4459 17424 17425 XOR";
"2 1 154 17425 4458 XOR";
"2 1 4458 17425 4457 AND";
"2 1 4457 17425 17426 XOR";
"2 1 16669 17426 17489 XOR";
"1 1 17489 16605 INV";
"2 1 16605 128 17617 AND";
"2 1 16668 17425 17488 XOR";
"1 1 17488 16604 INV";
"2 1 16604 128 17616 AND";
"2 1 17616 17552 30029 XOR";
"2 1 153 17426 4456 XOR";
"2 1 16661 17418 17481 XOR";
"1 1 17481 16597 INV";
"2 1 16597 128 17609 AND";
"2 1 17609 17545 30022 XOR";
"2 1 4456 17426 4455 AND";
"2 1 4455 17426 17427 XOR";
"2 1 16670 17427 17490 XOR";
"1 1 17490 16606 INV";
"2 1 16606 128 17618 AND";
"2 1 17618 17554 30031 XOR";
"2 1 152 17427 4454 XOR";
"2 1 4454 17427 4453 AND";
"2 1 4453 17427 17428 XOR";
"2 1 151 17428 4452 XOR";
"2 1 16671 17428 17491 XOR";
"1 1 17491 16607 INV";
"2 1 16607 128 17619 AND";
"2 1 17619 17555 30032 XOR";
"2 1 4452 17428 4451 AND";
"2 1 4451 17428 17429 XOR";
"2 1 150 17429 4450 XOR";
"2 1 4450 17429 4449 AND";
"2 1 4449 17429 17430 XOR";
"2 1 149 17430 4448 XOR";
"2 1 4448 17430 4447 AND";
"2 1 4447 17430 17431 XOR";
"2 1 16674 17431 17494 XOR";
"1 1 17494 16610 INV";
"2 1 16610 128 17622 AND";
"2 1 16673 17430 17493 XOR";
"1 1 17493 16609 INV";
"2 1 16609 128 17621 AND";
"2 1 17622 17558 30035 XOR";
"2 1 148 17431 4446 XOR";
"2 1 4446 17431 4445 AND";
"2 1 4445 17431 17432 XOR";
"2 1 16675 17432 17495 XOR";
"1 1 17495 16611 INV";
"2 1 147 17432 4444 XOR";
"2 1 4444 17432 4443 AND";
"2 1 4443 17432 17433 XOR";
"2 1 146 17433 4442 XOR";
"2 1 4442 17433 4441 AND";
"2 1 4441 17433 17434 XOR";
"2 1 145 17434 4440 XOR";
"2 1 4440 17434 4439 AND";
"2 1 16677 17434 17497 XOR";
"2 1 4439 17434 17435 XOR";
"2 1 16678 17435 17498 XOR";
"1 1 17498 16614 INV";
"2 1 16614 128 17626 AND";
"2 1 17626 17562 30039 XOR";
"1 1 17497 16613 INV";
"2 1 16613 128 17625 AND";
"2 1 17625 17561 30038 XOR";
"2 1 16676 17433 17496 XOR";
"1 1 17496 16612 INV";
"2 1 16612 128 17624 AND";
"2 1 144 17435 4438 XOR";
"2 1 4438 17435 4437 AND";
"2 1 4437 17435 17436 XOR";
"2 1 143 17436 4436 XOR";
"2 1 4436 17436 4435 AND";
"2 1 4435 17436 17437 XOR";
"2 1 142 17437 4434 XOR";
"2 1 4434 17437 4433 AND";
"2 1 16680 17437 17500 XOR";
"1 1 17500 16616 INV";
"2 1 16616 128 17628 AND";
"2 1 16679 17436 17499 XOR";
"2 1 4433 17437 17438 XOR";
"2 1 16681 17438 17501 XOR";
"1 1 17501 16617 INV";
"2 1 16617 128 17629 AND";
"2 1 141 17438 4432 XOR";
"2 1 4432 17438 4431 AND";
"2 1 17629 17565 30042 XOR";
"2 1 16611 128 17623 AND";
"2 1 17623 17559 30036 XOR";
"2 1 4431 17438 17439 XOR";
"2 1 16682 17439 17502 XOR";
"1 1 17502 16618 INV";
"2 1 16618 128 17630 AND";
"2 1 140 17439 4430 XOR";
"2 1 17630 17566 30043 XOR";
"1 1 17499 16615 INV";
"2 1 16615 128 17627 AND";
"2 1 17627 17563 30040 XOR";
"2 1 17600 17536 30013 XOR";
"2 1 17607 17543 30020 XOR";
"2 1 17614 17550 30027 XOR";
"2 1 17621 17557 30034 XOR";
"2 1 17628 17564 30041 XOR";
"2 1 17596 17532 30009 XOR";
"2 1 17603 17539 30016 XOR";
"2 1 17610 17546 30023 XOR";
"2 1 17617 17553 30030 XOR";
"2 1 17624 17560 30037 XOR";
"2 1 4430 17439 4429 AND";
"2 1 4429 17439 17440 XOR";
"2 1 139 17440 4428 XOR";
"2 1 16683 17440 17503 XOR";
"1 1 17503 16619 INV";
"2 1 16619 128 17631 AND";
"2 1 4428 17440 4427 AND";
"2 1 4427 17440 17441 XOR";
"2 1 138 17441 4426 XOR";
"2 1 4426 17441 4425 AND";
"2 1 16684 17441 17504 XOR";
"1 1 17504 16620 INV";
"2 1 16620 128 17632 AND";
"2 1 17632 17568 30045 XOR";
"2 1 17631 17567 30044 XOR";
"2 1 4425 17441 17442 XOR";
"2 1 137 17442 4424 XOR";
"2 1 16685 17442 17505 XOR";
"2 1 4424 17442 4423 AND";
"1 1 17505 16621 INV";
"2 1 16621 128 17633 AND";
"2 1 17633 17569 30046 XOR";
"2 1 4423 17442 17443 XOR";
"2 1 136 17443 4422 XOR";
"2 1 4422 17443 4421 AND";
"2 1 4421 17443 17444 XOR";
"2 1 16687 17444 17507 XOR";
"1 1 17507 16623 INV";
"2 1 16623 128 17635 AND";
"2 1 17635 17571 30048 XOR";
"2 1 135 17444 4420 XOR";
"2 1 4420 17444 4419 AND";
"2 1 4419 17444 17445 XOR";
"2 1 16688 17445 17508 XOR";
"1 1 17508 16624 INV";
"2 1 134 17445 4418 XOR";
"2 1 4418 17445 4417 AND";
"2 1 4417 17445 17446 XOR";
"2 1 133 17446 4416 XOR";
"2 1 16624 128 17636 AND";
"2 1 16689 17446 17509 XOR";
"1 1 17509 16625 INV";
"2 1 16625 128 17637 AND";
"2 1 17637 17573 30050 XOR";
"2 1 17636 17572 30049 XOR";
"2 1 4416 17446 4415 AND";
"2 1 4415 17446 17447 XOR";
"2 1 16690 17447 17510 XOR";
"1 1 17510 16626 INV";
"2 1 16626 128 17638 AND";
"2 1 17638 17574 30051 XOR";
"2 1 132 17447 4414 XOR";
"2 1 4414 17447 4413 AND";
"2 1 4413 17447 17448 XOR";
"2 1 131 17448 4412 XOR";
"2 1 4412 17448 4411 AND";
"2 1 4411 17448 17449 XOR";
"2 1 16692 17449 17512 XOR";
"1 1 17512 16628 INV";
"2 1 16628 128 17640 AND";
"2 1 17640 17576 30053 XOR";
"2 1 16691 17448 17511 XOR";
"1 1 17511 16627 INV";
"2 1 16627 128 17639 AND";
"2 1 17639 17575 30052 XOR";
"2 1 16686 17443 17506 XOR";
"1 1 17506 16622 INV";
"2 1 16622 128 17634 AND";
"2 1 17634 17570 30047 XOR";
"2 1 16672 17429 17492 XOR";
"1 1 17492 16608 INV";
"2 1 16608 128 17620 AND";
"2 1 17620 17556 30033 XOR";
"2 1 16658 17415 17478 XOR";
"1 1 17478 16594 INV";
"2 1 16594 128 17606 AND";
"2 1 17606 17542 30019 XOR";
"2 1 16586 128 17598 AND";
"2 1 17598 17534 30011 XOR"].
