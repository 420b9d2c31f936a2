(** Generated by tools/gen_country.py: the enum [country::Id]
    (/repo/src/country.rs:100-346), [AsRef<str>] and [FromStr] as derived by strum
    (the variant name, compared exactly). *)
From Verif Require Import Base.

Inductive id :=
 | ID_AC | ID_AD | ID_AE | ID_AF | ID_AG | ID_AI | ID_AL | ID_AM | ID_AO | ID_AR | ID_AS | ID_AT
 | ID_AU | ID_AW | ID_AX | ID_AZ | ID_BA | ID_BB | ID_BD | ID_BE | ID_BF | ID_BG | ID_BH | ID_BI
 | ID_BJ | ID_BL | ID_BM | ID_BN | ID_BO | ID_BQ | ID_BR | ID_BS | ID_BT | ID_BW | ID_BY | ID_BZ
 | ID_CA | ID_CC | ID_CD | ID_CF | ID_CG | ID_CH | ID_CI | ID_CK | ID_CL | ID_CM | ID_CN | ID_CO
 | ID_CR | ID_CU | ID_CV | ID_CW | ID_CX | ID_CY | ID_CZ | ID_DE | ID_DJ | ID_DK | ID_DM | ID_DO
 | ID_DZ | ID_EC | ID_EE | ID_EG | ID_EH | ID_ER | ID_ES | ID_ET | ID_FI | ID_FJ | ID_FK | ID_FM
 | ID_FO | ID_FR | ID_GA | ID_GB | ID_GD | ID_GE | ID_GF | ID_GG | ID_GH | ID_GI | ID_GL | ID_GM
 | ID_GN | ID_GP | ID_GQ | ID_GR | ID_GT | ID_GU | ID_GW | ID_GY | ID_HK | ID_HN | ID_HR | ID_HT
 | ID_HU | ID_ID | ID_IE | ID_IL | ID_IM | ID_IN | ID_IO | ID_IQ | ID_IR | ID_IS | ID_IT | ID_JE
 | ID_JM | ID_JO | ID_JP | ID_KE | ID_KG | ID_KH | ID_KI | ID_KM | ID_KN | ID_KP | ID_KR | ID_KW
 | ID_KY | ID_KZ | ID_LA | ID_LB | ID_LC | ID_LI | ID_LK | ID_LR | ID_LS | ID_LT | ID_LU | ID_LV
 | ID_LY | ID_MA | ID_MC | ID_MD | ID_ME | ID_MF | ID_MG | ID_MH | ID_MK | ID_ML | ID_MM | ID_MN
 | ID_MO | ID_MP | ID_MQ | ID_MR | ID_MS | ID_MT | ID_MU | ID_MV | ID_MW | ID_MX | ID_MY | ID_MZ
 | ID_NA | ID_NC | ID_NE | ID_NF | ID_NG | ID_NI | ID_NL | ID_NO | ID_NP | ID_NR | ID_NU | ID_NZ
 | ID_OM | ID_PA | ID_PE | ID_PF | ID_PG | ID_PH | ID_PK | ID_PL | ID_PM | ID_PR | ID_PS | ID_PT
 | ID_PW | ID_PY | ID_QA | ID_RE | ID_RO | ID_RS | ID_RU | ID_RW | ID_SA | ID_SB | ID_SC | ID_SD
 | ID_SE | ID_SG | ID_SH | ID_SI | ID_SJ | ID_SK | ID_SL | ID_SM | ID_SN | ID_SO | ID_SR | ID_SS
 | ID_ST | ID_SV | ID_SX | ID_SY | ID_SZ | ID_TA | ID_TC | ID_TD | ID_TG | ID_TH | ID_TJ | ID_TK
 | ID_TL | ID_TM | ID_TN | ID_TO | ID_TR | ID_TT | ID_TV | ID_TW | ID_TZ | ID_UA | ID_UG | ID_US
 | ID_UY | ID_UZ | ID_VA | ID_VC | ID_VE | ID_VG | ID_VI | ID_VN | ID_VU | ID_WF | ID_WS | ID_XK
 | ID_YE | ID_YT | ID_ZA | ID_ZM | ID_ZW.

(** [Id::as_ref] *)
Definition id_name (i : id) : str :=
  match i with
  | ID_AC => lit "AC"
  | ID_AD => lit "AD"
  | ID_AE => lit "AE"
  | ID_AF => lit "AF"
  | ID_AG => lit "AG"
  | ID_AI => lit "AI"
  | ID_AL => lit "AL"
  | ID_AM => lit "AM"
  | ID_AO => lit "AO"
  | ID_AR => lit "AR"
  | ID_AS => lit "AS"
  | ID_AT => lit "AT"
  | ID_AU => lit "AU"
  | ID_AW => lit "AW"
  | ID_AX => lit "AX"
  | ID_AZ => lit "AZ"
  | ID_BA => lit "BA"
  | ID_BB => lit "BB"
  | ID_BD => lit "BD"
  | ID_BE => lit "BE"
  | ID_BF => lit "BF"
  | ID_BG => lit "BG"
  | ID_BH => lit "BH"
  | ID_BI => lit "BI"
  | ID_BJ => lit "BJ"
  | ID_BL => lit "BL"
  | ID_BM => lit "BM"
  | ID_BN => lit "BN"
  | ID_BO => lit "BO"
  | ID_BQ => lit "BQ"
  | ID_BR => lit "BR"
  | ID_BS => lit "BS"
  | ID_BT => lit "BT"
  | ID_BW => lit "BW"
  | ID_BY => lit "BY"
  | ID_BZ => lit "BZ"
  | ID_CA => lit "CA"
  | ID_CC => lit "CC"
  | ID_CD => lit "CD"
  | ID_CF => lit "CF"
  | ID_CG => lit "CG"
  | ID_CH => lit "CH"
  | ID_CI => lit "CI"
  | ID_CK => lit "CK"
  | ID_CL => lit "CL"
  | ID_CM => lit "CM"
  | ID_CN => lit "CN"
  | ID_CO => lit "CO"
  | ID_CR => lit "CR"
  | ID_CU => lit "CU"
  | ID_CV => lit "CV"
  | ID_CW => lit "CW"
  | ID_CX => lit "CX"
  | ID_CY => lit "CY"
  | ID_CZ => lit "CZ"
  | ID_DE => lit "DE"
  | ID_DJ => lit "DJ"
  | ID_DK => lit "DK"
  | ID_DM => lit "DM"
  | ID_DO => lit "DO"
  | ID_DZ => lit "DZ"
  | ID_EC => lit "EC"
  | ID_EE => lit "EE"
  | ID_EG => lit "EG"
  | ID_EH => lit "EH"
  | ID_ER => lit "ER"
  | ID_ES => lit "ES"
  | ID_ET => lit "ET"
  | ID_FI => lit "FI"
  | ID_FJ => lit "FJ"
  | ID_FK => lit "FK"
  | ID_FM => lit "FM"
  | ID_FO => lit "FO"
  | ID_FR => lit "FR"
  | ID_GA => lit "GA"
  | ID_GB => lit "GB"
  | ID_GD => lit "GD"
  | ID_GE => lit "GE"
  | ID_GF => lit "GF"
  | ID_GG => lit "GG"
  | ID_GH => lit "GH"
  | ID_GI => lit "GI"
  | ID_GL => lit "GL"
  | ID_GM => lit "GM"
  | ID_GN => lit "GN"
  | ID_GP => lit "GP"
  | ID_GQ => lit "GQ"
  | ID_GR => lit "GR"
  | ID_GT => lit "GT"
  | ID_GU => lit "GU"
  | ID_GW => lit "GW"
  | ID_GY => lit "GY"
  | ID_HK => lit "HK"
  | ID_HN => lit "HN"
  | ID_HR => lit "HR"
  | ID_HT => lit "HT"
  | ID_HU => lit "HU"
  | ID_ID => lit "ID"
  | ID_IE => lit "IE"
  | ID_IL => lit "IL"
  | ID_IM => lit "IM"
  | ID_IN => lit "IN"
  | ID_IO => lit "IO"
  | ID_IQ => lit "IQ"
  | ID_IR => lit "IR"
  | ID_IS => lit "IS"
  | ID_IT => lit "IT"
  | ID_JE => lit "JE"
  | ID_JM => lit "JM"
  | ID_JO => lit "JO"
  | ID_JP => lit "JP"
  | ID_KE => lit "KE"
  | ID_KG => lit "KG"
  | ID_KH => lit "KH"
  | ID_KI => lit "KI"
  | ID_KM => lit "KM"
  | ID_KN => lit "KN"
  | ID_KP => lit "KP"
  | ID_KR => lit "KR"
  | ID_KW => lit "KW"
  | ID_KY => lit "KY"
  | ID_KZ => lit "KZ"
  | ID_LA => lit "LA"
  | ID_LB => lit "LB"
  | ID_LC => lit "LC"
  | ID_LI => lit "LI"
  | ID_LK => lit "LK"
  | ID_LR => lit "LR"
  | ID_LS => lit "LS"
  | ID_LT => lit "LT"
  | ID_LU => lit "LU"
  | ID_LV => lit "LV"
  | ID_LY => lit "LY"
  | ID_MA => lit "MA"
  | ID_MC => lit "MC"
  | ID_MD => lit "MD"
  | ID_ME => lit "ME"
  | ID_MF => lit "MF"
  | ID_MG => lit "MG"
  | ID_MH => lit "MH"
  | ID_MK => lit "MK"
  | ID_ML => lit "ML"
  | ID_MM => lit "MM"
  | ID_MN => lit "MN"
  | ID_MO => lit "MO"
  | ID_MP => lit "MP"
  | ID_MQ => lit "MQ"
  | ID_MR => lit "MR"
  | ID_MS => lit "MS"
  | ID_MT => lit "MT"
  | ID_MU => lit "MU"
  | ID_MV => lit "MV"
  | ID_MW => lit "MW"
  | ID_MX => lit "MX"
  | ID_MY => lit "MY"
  | ID_MZ => lit "MZ"
  | ID_NA => lit "NA"
  | ID_NC => lit "NC"
  | ID_NE => lit "NE"
  | ID_NF => lit "NF"
  | ID_NG => lit "NG"
  | ID_NI => lit "NI"
  | ID_NL => lit "NL"
  | ID_NO => lit "NO"
  | ID_NP => lit "NP"
  | ID_NR => lit "NR"
  | ID_NU => lit "NU"
  | ID_NZ => lit "NZ"
  | ID_OM => lit "OM"
  | ID_PA => lit "PA"
  | ID_PE => lit "PE"
  | ID_PF => lit "PF"
  | ID_PG => lit "PG"
  | ID_PH => lit "PH"
  | ID_PK => lit "PK"
  | ID_PL => lit "PL"
  | ID_PM => lit "PM"
  | ID_PR => lit "PR"
  | ID_PS => lit "PS"
  | ID_PT => lit "PT"
  | ID_PW => lit "PW"
  | ID_PY => lit "PY"
  | ID_QA => lit "QA"
  | ID_RE => lit "RE"
  | ID_RO => lit "RO"
  | ID_RS => lit "RS"
  | ID_RU => lit "RU"
  | ID_RW => lit "RW"
  | ID_SA => lit "SA"
  | ID_SB => lit "SB"
  | ID_SC => lit "SC"
  | ID_SD => lit "SD"
  | ID_SE => lit "SE"
  | ID_SG => lit "SG"
  | ID_SH => lit "SH"
  | ID_SI => lit "SI"
  | ID_SJ => lit "SJ"
  | ID_SK => lit "SK"
  | ID_SL => lit "SL"
  | ID_SM => lit "SM"
  | ID_SN => lit "SN"
  | ID_SO => lit "SO"
  | ID_SR => lit "SR"
  | ID_SS => lit "SS"
  | ID_ST => lit "ST"
  | ID_SV => lit "SV"
  | ID_SX => lit "SX"
  | ID_SY => lit "SY"
  | ID_SZ => lit "SZ"
  | ID_TA => lit "TA"
  | ID_TC => lit "TC"
  | ID_TD => lit "TD"
  | ID_TG => lit "TG"
  | ID_TH => lit "TH"
  | ID_TJ => lit "TJ"
  | ID_TK => lit "TK"
  | ID_TL => lit "TL"
  | ID_TM => lit "TM"
  | ID_TN => lit "TN"
  | ID_TO => lit "TO"
  | ID_TR => lit "TR"
  | ID_TT => lit "TT"
  | ID_TV => lit "TV"
  | ID_TW => lit "TW"
  | ID_TZ => lit "TZ"
  | ID_UA => lit "UA"
  | ID_UG => lit "UG"
  | ID_US => lit "US"
  | ID_UY => lit "UY"
  | ID_UZ => lit "UZ"
  | ID_VA => lit "VA"
  | ID_VC => lit "VC"
  | ID_VE => lit "VE"
  | ID_VG => lit "VG"
  | ID_VI => lit "VI"
  | ID_VN => lit "VN"
  | ID_VU => lit "VU"
  | ID_WF => lit "WF"
  | ID_WS => lit "WS"
  | ID_XK => lit "XK"
  | ID_YE => lit "YE"
  | ID_YT => lit "YT"
  | ID_ZA => lit "ZA"
  | ID_ZM => lit "ZM"
  | ID_ZW => lit "ZW"
  end.

Definition all_ids : list id := [
  ID_AC; ID_AD; ID_AE; ID_AF; ID_AG; ID_AI; ID_AL; ID_AM; ID_AO; ID_AR; ID_AS; ID_AT;
  ID_AU; ID_AW; ID_AX; ID_AZ; ID_BA; ID_BB; ID_BD; ID_BE; ID_BF; ID_BG; ID_BH; ID_BI;
  ID_BJ; ID_BL; ID_BM; ID_BN; ID_BO; ID_BQ; ID_BR; ID_BS; ID_BT; ID_BW; ID_BY; ID_BZ;
  ID_CA; ID_CC; ID_CD; ID_CF; ID_CG; ID_CH; ID_CI; ID_CK; ID_CL; ID_CM; ID_CN; ID_CO;
  ID_CR; ID_CU; ID_CV; ID_CW; ID_CX; ID_CY; ID_CZ; ID_DE; ID_DJ; ID_DK; ID_DM; ID_DO;
  ID_DZ; ID_EC; ID_EE; ID_EG; ID_EH; ID_ER; ID_ES; ID_ET; ID_FI; ID_FJ; ID_FK; ID_FM;
  ID_FO; ID_FR; ID_GA; ID_GB; ID_GD; ID_GE; ID_GF; ID_GG; ID_GH; ID_GI; ID_GL; ID_GM;
  ID_GN; ID_GP; ID_GQ; ID_GR; ID_GT; ID_GU; ID_GW; ID_GY; ID_HK; ID_HN; ID_HR; ID_HT;
  ID_HU; ID_ID; ID_IE; ID_IL; ID_IM; ID_IN; ID_IO; ID_IQ; ID_IR; ID_IS; ID_IT; ID_JE;
  ID_JM; ID_JO; ID_JP; ID_KE; ID_KG; ID_KH; ID_KI; ID_KM; ID_KN; ID_KP; ID_KR; ID_KW;
  ID_KY; ID_KZ; ID_LA; ID_LB; ID_LC; ID_LI; ID_LK; ID_LR; ID_LS; ID_LT; ID_LU; ID_LV;
  ID_LY; ID_MA; ID_MC; ID_MD; ID_ME; ID_MF; ID_MG; ID_MH; ID_MK; ID_ML; ID_MM; ID_MN;
  ID_MO; ID_MP; ID_MQ; ID_MR; ID_MS; ID_MT; ID_MU; ID_MV; ID_MW; ID_MX; ID_MY; ID_MZ;
  ID_NA; ID_NC; ID_NE; ID_NF; ID_NG; ID_NI; ID_NL; ID_NO; ID_NP; ID_NR; ID_NU; ID_NZ;
  ID_OM; ID_PA; ID_PE; ID_PF; ID_PG; ID_PH; ID_PK; ID_PL; ID_PM; ID_PR; ID_PS; ID_PT;
  ID_PW; ID_PY; ID_QA; ID_RE; ID_RO; ID_RS; ID_RU; ID_RW; ID_SA; ID_SB; ID_SC; ID_SD;
  ID_SE; ID_SG; ID_SH; ID_SI; ID_SJ; ID_SK; ID_SL; ID_SM; ID_SN; ID_SO; ID_SR; ID_SS;
  ID_ST; ID_SV; ID_SX; ID_SY; ID_SZ; ID_TA; ID_TC; ID_TD; ID_TG; ID_TH; ID_TJ; ID_TK;
  ID_TL; ID_TM; ID_TN; ID_TO; ID_TR; ID_TT; ID_TV; ID_TW; ID_TZ; ID_UA; ID_UG; ID_US;
  ID_UY; ID_UZ; ID_VA; ID_VC; ID_VE; ID_VG; ID_VI; ID_VN; ID_VU; ID_WF; ID_WS; ID_XK;
  ID_YE; ID_YT; ID_ZA; ID_ZM; ID_ZW].

(** Position in the enum. *)
Definition id_index (i : id) : nat :=
  match i with
  | ID_AC => 0
  | ID_AD => 1
  | ID_AE => 2
  | ID_AF => 3
  | ID_AG => 4
  | ID_AI => 5
  | ID_AL => 6
  | ID_AM => 7
  | ID_AO => 8
  | ID_AR => 9
  | ID_AS => 10
  | ID_AT => 11
  | ID_AU => 12
  | ID_AW => 13
  | ID_AX => 14
  | ID_AZ => 15
  | ID_BA => 16
  | ID_BB => 17
  | ID_BD => 18
  | ID_BE => 19
  | ID_BF => 20
  | ID_BG => 21
  | ID_BH => 22
  | ID_BI => 23
  | ID_BJ => 24
  | ID_BL => 25
  | ID_BM => 26
  | ID_BN => 27
  | ID_BO => 28
  | ID_BQ => 29
  | ID_BR => 30
  | ID_BS => 31
  | ID_BT => 32
  | ID_BW => 33
  | ID_BY => 34
  | ID_BZ => 35
  | ID_CA => 36
  | ID_CC => 37
  | ID_CD => 38
  | ID_CF => 39
  | ID_CG => 40
  | ID_CH => 41
  | ID_CI => 42
  | ID_CK => 43
  | ID_CL => 44
  | ID_CM => 45
  | ID_CN => 46
  | ID_CO => 47
  | ID_CR => 48
  | ID_CU => 49
  | ID_CV => 50
  | ID_CW => 51
  | ID_CX => 52
  | ID_CY => 53
  | ID_CZ => 54
  | ID_DE => 55
  | ID_DJ => 56
  | ID_DK => 57
  | ID_DM => 58
  | ID_DO => 59
  | ID_DZ => 60
  | ID_EC => 61
  | ID_EE => 62
  | ID_EG => 63
  | ID_EH => 64
  | ID_ER => 65
  | ID_ES => 66
  | ID_ET => 67
  | ID_FI => 68
  | ID_FJ => 69
  | ID_FK => 70
  | ID_FM => 71
  | ID_FO => 72
  | ID_FR => 73
  | ID_GA => 74
  | ID_GB => 75
  | ID_GD => 76
  | ID_GE => 77
  | ID_GF => 78
  | ID_GG => 79
  | ID_GH => 80
  | ID_GI => 81
  | ID_GL => 82
  | ID_GM => 83
  | ID_GN => 84
  | ID_GP => 85
  | ID_GQ => 86
  | ID_GR => 87
  | ID_GT => 88
  | ID_GU => 89
  | ID_GW => 90
  | ID_GY => 91
  | ID_HK => 92
  | ID_HN => 93
  | ID_HR => 94
  | ID_HT => 95
  | ID_HU => 96
  | ID_ID => 97
  | ID_IE => 98
  | ID_IL => 99
  | ID_IM => 100
  | ID_IN => 101
  | ID_IO => 102
  | ID_IQ => 103
  | ID_IR => 104
  | ID_IS => 105
  | ID_IT => 106
  | ID_JE => 107
  | ID_JM => 108
  | ID_JO => 109
  | ID_JP => 110
  | ID_KE => 111
  | ID_KG => 112
  | ID_KH => 113
  | ID_KI => 114
  | ID_KM => 115
  | ID_KN => 116
  | ID_KP => 117
  | ID_KR => 118
  | ID_KW => 119
  | ID_KY => 120
  | ID_KZ => 121
  | ID_LA => 122
  | ID_LB => 123
  | ID_LC => 124
  | ID_LI => 125
  | ID_LK => 126
  | ID_LR => 127
  | ID_LS => 128
  | ID_LT => 129
  | ID_LU => 130
  | ID_LV => 131
  | ID_LY => 132
  | ID_MA => 133
  | ID_MC => 134
  | ID_MD => 135
  | ID_ME => 136
  | ID_MF => 137
  | ID_MG => 138
  | ID_MH => 139
  | ID_MK => 140
  | ID_ML => 141
  | ID_MM => 142
  | ID_MN => 143
  | ID_MO => 144
  | ID_MP => 145
  | ID_MQ => 146
  | ID_MR => 147
  | ID_MS => 148
  | ID_MT => 149
  | ID_MU => 150
  | ID_MV => 151
  | ID_MW => 152
  | ID_MX => 153
  | ID_MY => 154
  | ID_MZ => 155
  | ID_NA => 156
  | ID_NC => 157
  | ID_NE => 158
  | ID_NF => 159
  | ID_NG => 160
  | ID_NI => 161
  | ID_NL => 162
  | ID_NO => 163
  | ID_NP => 164
  | ID_NR => 165
  | ID_NU => 166
  | ID_NZ => 167
  | ID_OM => 168
  | ID_PA => 169
  | ID_PE => 170
  | ID_PF => 171
  | ID_PG => 172
  | ID_PH => 173
  | ID_PK => 174
  | ID_PL => 175
  | ID_PM => 176
  | ID_PR => 177
  | ID_PS => 178
  | ID_PT => 179
  | ID_PW => 180
  | ID_PY => 181
  | ID_QA => 182
  | ID_RE => 183
  | ID_RO => 184
  | ID_RS => 185
  | ID_RU => 186
  | ID_RW => 187
  | ID_SA => 188
  | ID_SB => 189
  | ID_SC => 190
  | ID_SD => 191
  | ID_SE => 192
  | ID_SG => 193
  | ID_SH => 194
  | ID_SI => 195
  | ID_SJ => 196
  | ID_SK => 197
  | ID_SL => 198
  | ID_SM => 199
  | ID_SN => 200
  | ID_SO => 201
  | ID_SR => 202
  | ID_SS => 203
  | ID_ST => 204
  | ID_SV => 205
  | ID_SX => 206
  | ID_SY => 207
  | ID_SZ => 208
  | ID_TA => 209
  | ID_TC => 210
  | ID_TD => 211
  | ID_TG => 212
  | ID_TH => 213
  | ID_TJ => 214
  | ID_TK => 215
  | ID_TL => 216
  | ID_TM => 217
  | ID_TN => 218
  | ID_TO => 219
  | ID_TR => 220
  | ID_TT => 221
  | ID_TV => 222
  | ID_TW => 223
  | ID_TZ => 224
  | ID_UA => 225
  | ID_UG => 226
  | ID_US => 227
  | ID_UY => 228
  | ID_UZ => 229
  | ID_VA => 230
  | ID_VC => 231
  | ID_VE => 232
  | ID_VG => 233
  | ID_VI => 234
  | ID_VN => 235
  | ID_VU => 236
  | ID_WF => 237
  | ID_WS => 238
  | ID_XK => 239
  | ID_YE => 240
  | ID_YT => 241
  | ID_ZA => 242
  | ID_ZM => 243
  | ID_ZW => 244
  end.

Lemma all_ids_nth : forall i, nth_error all_ids (id_index i) = Some i.
Proof. destruct i; reflexivity. Qed.

Lemma all_ids_complete : forall i, In i all_ids.
Proof. intros i. apply (nth_error_In all_ids (id_index i)), all_ids_nth. Qed.

Fixpoint id_find (s : str) (l : list id) : option id :=
  match l with
  | [] => None
  | i :: l' => if str_eqb (id_name i) s then Some i else id_find s l'
  end.

(** [str::parse::<Id>()] *)
Definition id_of_name (s : str) : option id := id_find s all_ids.
