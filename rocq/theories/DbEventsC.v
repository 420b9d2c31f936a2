(** Generated by tools/gen_db.py from /repo/assets/PhoneNumberMetadata.xml: XML events,
    territories 129 to 192 of 254.  See the script for what is dropped. *)
From Verif Require Import Base CountryId Types Metadata Loader DbEventsDefs.
Local Open Scope bstr_scope.

Definition ev_128 : list event :=
  st "territory" [("id", "LS"); ("countryCode", "266"); ("internationalPrefix", "00")]
  ++ st "availableFormats" []
  ++ st "numberFormat" [("pattern", "(\d{4})(\d{4})")]
  ++ tx "leadingDigits" "[2568]"
  ++ tx "format" "$1 $2"
  ++ en "numberFormat"
  ++ en "availableFormats"
  ++ st "generalDesc" []
  ++ tx "nationalNumberPattern" "(?:[256]\d\d|800)\d{5}"
  ++ en "generalDesc"
  ++ st "fixedLine" []
  ++ em "possibleLengths" [("national", "8")]
  ++ tx "exampleNumber" "22123456"
  ++ tx "nationalNumberPattern" "2\d{7}"
  ++ en "fixedLine"
  ++ st "mobile" []
  ++ em "possibleLengths" [("national", "8")]
  ++ tx "exampleNumber" "50123456"
  ++ tx "nationalNumberPattern" "[56]\d{7}"
  ++ en "mobile"
  ++ st "tollFree" []
  ++ em "possibleLengths" [("national", "8")]
  ++ tx "exampleNumber" "80021234"
  ++ tx "nationalNumberPattern" "800[1256]\d{4}"
  ++ en "tollFree"
  ++ en "territory".

Definition ev_129 : list event :=
  st "territory" [("id", "LT"); ("countryCode", "370"); ("internationalPrefix", "00"); ("nationalPrefix", "0"); ("nationalPrefixForParsing", "[08]"); ("mobileNumberPortableRegion", "true")]
  ++ st "availableFormats" []
  ++ st "numberFormat" [("pattern", "(\d)(\d{3})(\d{4})"); ("nationalPrefixFormattingRule", "($NP-$FG)"); ("nationalPrefixOptionalWhenFormatting", "true")]
  ++ tx "leadingDigits" "52[0-7]"
  ++ tx "format" "$1 $2 $3"
  ++ en "numberFormat"
  ++ st "numberFormat" [("pattern", "(\d{3})(\d{2})(\d{3})"); ("nationalPrefixFormattingRule", "$NP $FG"); ("nationalPrefixOptionalWhenFormatting", "true")]
  ++ tx "leadingDigits" "[7-9]"
  ++ tx "format" "$1 $2 $3"
  ++ en "numberFormat"
  ++ st "numberFormat" [("pattern", "(\d{2})(\d{6})"); ("nationalPrefixFormattingRule", "($NP-$FG)"); ("nationalPrefixOptionalWhenFormatting", "true")]
  ++ tx "leadingDigits" "37|4(?:[15]|6[1-8])"
  ++ tx "format" "$1 $2"
  ++ en "numberFormat"
  ++ st "numberFormat" [("pattern", "(\d{3})(\d{5})"); ("nationalPrefixFormattingRule", "($NP-$FG)"); ("nationalPrefixOptionalWhenFormatting", "true")]
  ++ tx "leadingDigits" "[3-6]"
  ++ tx "format" "$1 $2"
  ++ en "numberFormat"
  ++ en "availableFormats"
  ++ st "generalDesc" []
  ++ tx "nationalNumberPattern" "(?:[3469]\d|52|[78]0)\d{6}"
  ++ en "generalDesc"
  ++ st "fixedLine" []
  ++ em "possibleLengths" [("national", "8")]
  ++ tx "exampleNumber" "31234567"
  ++ tx "nationalNumberPattern" "(?:3[1478]|4[124-6]|52)\d{6}"
  ++ en "fixedLine"
  ++ st "mobile" []
  ++ em "possibleLengths" [("national", "8")]
  ++ tx "exampleNumber" "61234567"
  ++ tx "nationalNumberPattern" "6\d{7}"
  ++ en "mobile"
  ++ st "tollFree" []
  ++ em "possibleLengths" [("national", "8")]
  ++ tx "exampleNumber" "80012345"
  ++ tx "nationalNumberPattern" "80[02]\d{5}"
  ++ en "tollFree"
  ++ st "premiumRate" []
  ++ em "possibleLengths" [("national", "8")]
  ++ tx "exampleNumber" "90012345"
  ++ tx "nationalNumberPattern" "9(?:0[0239]|10)\d{5}"
  ++ en "premiumRate"
  ++ st "sharedCost" []
  ++ em "possibleLengths" [("national", "8")]
  ++ tx "exampleNumber" "80812345"
  ++ tx "nationalNumberPattern" "808\d{5}"
  ++ en "sharedCost"
  ++ st "personalNumber" []
  ++ em "possibleLengths" [("national", "8")]
  ++ tx "exampleNumber" "70012345"
  ++ tx "nationalNumberPattern" "70[05]\d{5}"
  ++ en "personalNumber"
  ++ st "voip" []
  ++ em "possibleLengths" [("national", "8")]
  ++ tx "exampleNumber" "80123456"
  ++ tx "nationalNumberPattern" "[89]01\d{5}"
  ++ en "voip"
  ++ st "uan" []
  ++ em "possibleLengths" [("national", "8")]
  ++ tx "exampleNumber" "70712345"
  ++ tx "nationalNumberPattern" "70[67]\d{5}"
  ++ en "uan"
  ++ en "territory".

Definition ev_130 : list event :=
  st "territory" [("id", "LU"); ("countryCode", "352"); ("internationalPrefix", "00"); ("nationalPrefixForParsing", "(15(?:0[06]|1[12]|[35]5|4[04]|6[26]|77|88|99)\d)"); ("mobileNumberPortableRegion", "true")]
  ++ st "availableFormats" []
  ++ st "numberFormat" [("pattern", "(\d{2})(\d{3})"); ("carrierCodeFormattingRule", "$CC $FG")]
  ++ tx "leadingDigits" "2(?:0[2-689]|[2-9])|[3-57]|8(?:0[2-9]|[13-9])|9(?:0[89]|[2-579])"
  ++ tx "format" "$1 $2"
  ++ en "numberFormat"
  ++ st "numberFormat" [("pattern", "(\d{2})(\d{2})(\d{2})"); ("carrierCodeFormattingRule", "$CC $FG")]
  ++ tx "leadingDigits" "2(?:0[2-689]|[2-9])|[3-57]|8(?:0[2-9]|[13-9])|9(?:0[89]|[2-579])"
  ++ tx "format" "$1 $2 $3"
  ++ en "numberFormat"
  ++ st "numberFormat" [("pattern", "(\d{2})(\d{2})(\d{3})"); ("carrierCodeFormattingRule", "$CC $FG")]
  ++ tx "leadingDigits" "20[2-689]"
  ++ tx "format" "$1 $2 $3"
  ++ en "numberFormat"
  ++ st "numberFormat" [("pattern", "(\d{2})(\d{2})(\d{2})(\d{1,2})"); ("carrierCodeFormattingRule", "$CC $FG")]
  ++ tx "leadingDigits" "20"
  ++ tx "format" "$1 $2 $3 $4"
  ++ en "numberFormat"
  ++ st "numberFormat" [("pattern", "(\d{2})(\d{2})(\d{2})(\d{1,5})"); ("carrierCodeFormattingRule", "$CC $FG")]
  ++ tx "leadingDigits" "[3-57]|8[13-9]|9(?:0[89]|[2-579])|(?:2|80)[2-9]"
  ++ tx "format" "$1 $2 $3 $4"
  ++ en "numberFormat"
  ++ st "numberFormat" [("pattern", "(\d{3})(\d{2})(\d{3})"); ("carrierCodeFormattingRule", "$CC $FG")]
  ++ tx "leadingDigits" "80[01]|90[015]"
  ++ tx "format" "$1 $2 $3"
  ++ en "numberFormat"
  ++ st "numberFormat" [("pattern", "(\d{2})(\d{2})(\d{2})(\d{3})"); ("carrierCodeFormattingRule", "$CC $FG")]
  ++ tx "leadingDigits" "20"
  ++ tx "format" "$1 $2 $3 $4"
  ++ en "numberFormat"
  ++ st "numberFormat" [("pattern", "(\d{3})(\d{3})(\d{3})"); ("carrierCodeFormattingRule", "$CC $FG")]
  ++ tx "leadingDigits" "6"
  ++ tx "format" "$1 $2 $3"
  ++ en "numberFormat"
  ++ st "numberFormat" [("pattern", "(\d{2})(\d{2})(\d{2})(\d{2})(\d{1,2})"); ("carrierCodeFormattingRule", "$CC $FG")]
  ++ tx "leadingDigits" "20"
  ++ tx "format" "$1 $2 $3 $4 $5"
  ++ en "numberFormat"
  ++ en "availableFormats"
  ++ st "generalDesc" []
  ++ tx "nationalNumberPattern" "35[013-9]\d{4,8}|6\d{8}|35\d{2,4}|(?:[2457-9]\d|3[0-46-9])\d{2,9}"
  ++ en "generalDesc"
  ++ st "fixedLine" []
  ++ em "possibleLengths" [("national", "[4-11]")]
  ++ tx "exampleNumber" "27123456"
  ++ tx "nationalNumberPattern" "(?:35[013-9]|80[2-9]|90[89])\d{1,8}|(?:2[2-9]|3[0-46-9]|[457]\d|8[13-9]|9[2-579])\d{2,9}"
  ++ en "fixedLine"
  ++ st "mobile" []
  ++ em "possibleLengths" [("national", "9")]
  ++ tx "exampleNumber" "628123456"
  ++ tx "nationalNumberPattern" "6(?:[26][18]|5[1568]|7[189]|81|9[128])\d{6}"
  ++ en "mobile"
  ++ st "tollFree" []
  ++ em "possibleLengths" [("national", "8")]
  ++ tx "exampleNumber" "80012345"
  ++ tx "nationalNumberPattern" "800\d{5}"
  ++ en "tollFree"
  ++ st "premiumRate" []
  ++ em "possibleLengths" [("national", "8")]
  ++ tx "exampleNumber" "90012345"
  ++ tx "nationalNumberPattern" "90[015]\d{5}"
  ++ en "premiumRate"
  ++ st "sharedCost" []
  ++ em "possibleLengths" [("national", "8")]
  ++ tx "exampleNumber" "80112345"
  ++ tx "nationalNumberPattern" "801\d{5}"
  ++ en "sharedCost"
  ++ st "voip" []
  ++ em "possibleLengths" [("national", "[4-10]")]
  ++ tx "exampleNumber" "20201234"
  ++ tx "nationalNumberPattern" "20(?:1\d{5}|[2-689]\d{1,7})"
  ++ en "voip"
  ++ en "territory".

Definition ev_131 : list event :=
  st "territory" [("id", "LV"); ("countryCode", "371"); ("internationalPrefix", "00"); ("mobileNumberPortableRegion", "true")]
  ++ st "availableFormats" []
  ++ st "numberFormat" [("pattern", "(\d{2})(\d{3})(\d{3})")]
  ++ tx "leadingDigits" "[2679]|8[01]"
  ++ tx "format" "$1 $2 $3"
  ++ en "numberFormat"
  ++ en "availableFormats"
  ++ st "generalDesc" []
  ++ tx "nationalNumberPattern" "(?:[268]\d|78|90)\d{6}"
  ++ en "generalDesc"
  ++ st "fixedLine" []
  ++ em "possibleLengths" [("national", "8")]
  ++ tx "exampleNumber" "63123456"
  ++ tx "nationalNumberPattern" "6\d{7}"
  ++ en "fixedLine"
  ++ st "mobile" []
  ++ em "possibleLengths" [("national", "8")]
  ++ tx "exampleNumber" "21234567"
  ++ tx "nationalNumberPattern" "2333[0-8]\d{3}|2(?:[0-24-9]\d\d|3(?:0[07]|[14-9]\d|2[02-9]|3[0-24-9]))\d{4}"
  ++ en "mobile"
  ++ st "tollFree" []
  ++ em "possibleLengths" [("national", "8")]
  ++ tx "exampleNumber" "80123456"
  ++ tx "nationalNumberPattern" "80\d{6}"
  ++ en "tollFree"
  ++ st "premiumRate" []
  ++ em "possibleLengths" [("national", "8")]
  ++ tx "exampleNumber" "90123456"
  ++ tx "nationalNumberPattern" "90\d{6}"
  ++ en "premiumRate"
  ++ st "sharedCost" []
  ++ em "possibleLengths" [("national", "8")]
  ++ tx "exampleNumber" "81123456"
  ++ tx "nationalNumberPattern" "81\d{6}"
  ++ en "sharedCost"
  ++ en "territory".

Definition ev_132 : list event :=
  st "territory" [("id", "LY"); ("countryCode", "218"); ("internationalPrefix", "00"); ("nationalPrefix", "0")]
  ++ st "availableFormats" []
  ++ st "numberFormat" [("pattern", "(\d{2})(\d{7})"); ("nationalPrefixFormattingRule", "$NP$FG")]
  ++ tx "leadingDigits" "[2-9]"
  ++ tx "format" "$1-$2"
  ++ en "numberFormat"
  ++ en "availableFormats"
  ++ st "generalDesc" []
  ++ tx "nationalNumberPattern" "[2-9]\d{8}"
  ++ en "generalDesc"
  ++ st "fixedLine" []
  ++ em "possibleLengths" [("national", "9"); ("localOnly", "7")]
  ++ tx "exampleNumber" "212345678"
  ++ tx "nationalNumberPattern" "(?:2(?:0[56]|[1-6]\d|7[124579]|8[124])|3(?:1\d|2[2356])|4(?:[17]\d|2[1-357]|5[2-4]|8[124])|5(?:[1347]\d|2[1-469]|5[13-5]|8[1-4])|6(?:[1-479]\d|5[2-57]|8[1-5])|7(?:[13]\d|2[13-79])|8(?:[124]\d|5[124]|84))\d{6}"
  ++ en "fixedLine"
  ++ st "mobile" []
  ++ em "possibleLengths" [("national", "9")]
  ++ tx "exampleNumber" "912345678"
  ++ tx "nationalNumberPattern" "9[1-6]\d{7}"
  ++ en "mobile"
  ++ en "territory".

Definition ev_133 : list event :=
  st "territory" [("id", "MA"); ("mainCountryForCode", "true"); ("countryCode", "212"); ("leadingDigits", "[5-8]"); ("internationalPrefix", "00"); ("nationalPrefix", "0"); ("mobileNumberPortableRegion", "true")]
  ++ st "availableFormats" []
  ++ st "numberFormat" [("pattern", "(\d{4})(\d{5})"); ("nationalPrefixFormattingRule", "$NP$FG")]
  ++ tx "leadingDigits" "892"
  ++ tx "format" "$1-$2"
  ++ en "numberFormat"
  ++ st "numberFormat" [("pattern", "(\d{2})(\d{7})"); ("nationalPrefixFormattingRule", "$NP$FG")]
  ++ tx "leadingDigits" "8(?:0[0-7]|9)"
  ++ tx "format" "$1-$2"
  ++ en "numberFormat"
  ++ st "numberFormat" [("pattern", "(\d)(\d{2})(\d{2})(\d{2})(\d{2})"); ("nationalPrefixFormattingRule", "$NP$FG")]
  ++ tx "leadingDigits" "[5-8]"
  ++ tx "format" "$1 $2 $3 $4 $5"
  ++ en "numberFormat"
  ++ en "availableFormats"
  ++ st "generalDesc" []
  ++ tx "nationalNumberPattern" "[5-8]\d{8}"
  ++ en "generalDesc"
  ++ st "fixedLine" []
  ++ em "possibleLengths" [("national", "9")]
  ++ tx "exampleNumber" "520123456"
  ++ tx "nationalNumberPattern" "5(?:(?:18|4[0679]|5[03])\d|2(?:[0-25-79]\d|3[1-578]|4[02-46-8]|8[0235-9])|3(?:[0-47]\d|5[02-9]|6[02-8]|8[014-9]|9[3-9]))\d{5}"
  ++ en "fixedLine"
  ++ st "mobile" []
  ++ em "possibleLengths" [("national", "9")]
  ++ tx "exampleNumber" "650123456"
  ++ tx "nationalNumberPattern" "(?:6(?:[0-79]\d|8[0-247-9])|7(?:[016-8]\d|2[0-8]|5[0-5]))\d{6}"
  ++ en "mobile"
  ++ st "tollFree" []
  ++ em "possibleLengths" [("national", "9")]
  ++ tx "exampleNumber" "801234567"
  ++ tx "nationalNumberPattern" "80[0-7]\d{6}"
  ++ en "tollFree"
  ++ st "premiumRate" []
  ++ em "possibleLengths" [("national", "9")]
  ++ tx "exampleNumber" "891234567"
  ++ tx "nationalNumberPattern" "89\d{7}"
  ++ en "premiumRate"
  ++ st "voip" []
  ++ em "possibleLengths" [("national", "9")]
  ++ tx "exampleNumber" "592401234"
  ++ tx "nationalNumberPattern" "(?:592(?:4[0-2]|93)|80[89]\d\d)\d{4}"
  ++ en "voip"
  ++ en "territory".

Definition ev_134 : list event :=
  st "territory" [("id", "MC"); ("countryCode", "377"); ("internationalPrefix", "00"); ("nationalPrefix", "0")]
  ++ st "availableFormats" []
  ++ st "numberFormat" [("pattern", "(\d{3})(\d{3})(\d{2})")]
  ++ tx "leadingDigits" "87"
  ++ tx "format" "$1 $2 $3"
  ++ tx "intlFormat" "NA"
  ++ en "numberFormat"
  ++ st "numberFormat" [("pattern", "(\d{2})(\d{3})(\d{3})"); ("nationalPrefixFormattingRule", "$NP$FG")]
  ++ tx "leadingDigits" "4"
  ++ tx "format" "$1 $2 $3"
  ++ en "numberFormat"
  ++ st "numberFormat" [("pattern", "(\d{2})(\d{2})(\d{2})(\d{2})")]
  ++ tx "leadingDigits" "[389]"
  ++ tx "format" "$1 $2 $3 $4"
  ++ en "numberFormat"
  ++ st "numberFormat" [("pattern", "(\d)(\d{2})(\d{2})(\d{2})(\d{2})"); ("nationalPrefixFormattingRule", "$NP$FG")]
  ++ tx "leadingDigits" "[67]"
  ++ tx "format" "$1 $2 $3 $4 $5"
  ++ en "numberFormat"
  ++ en "availableFormats"
  ++ st "generalDesc" []
  ++ tx "nationalNumberPattern" "(?:[3489]|[67]\d)\d{7}"
  ++ en "generalDesc"
  ++ st "noInternationalDialling" []
  ++ em "possibleLengths" [("national", "8")]
  ++ tx "nationalNumberPattern" "8[07]0\d{5}"
  ++ en "noInternationalDialling"
  ++ st "fixedLine" []
  ++ em "possibleLengths" [("national", "8")]
  ++ tx "exampleNumber" "99123456"
  ++ tx "nationalNumberPattern" "(?:870|9[2-47-9]\d)\d{5}"
  ++ en "fixedLine"
  ++ st "mobile" []
  ++ em "possibleLengths" [("national", "8,9")]
  ++ tx "exampleNumber" "612345678"
  ++ tx "nationalNumberPattern" "4(?:[46]\d|5[1-9])\d{5}|(?:3|[67]\d)\d{7}"
  ++ en "mobile"
  ++ st "tollFree" []
  ++ em "possibleLengths" [("national", "8")]
  ++ tx "exampleNumber" "90123456"
  ++ tx "nationalNumberPattern" "(?:800|90\d)\d{5}"
  ++ en "tollFree"
  ++ en "territory".

Definition ev_135 : list event :=
  st "territory" [("id", "MD"); ("countryCode", "373"); ("internationalPrefix", "00"); ("nationalPrefix", "0"); ("mobileNumberPortableRegion", "true")]
  ++ st "availableFormats" []
  ++ st "numberFormat" [("pattern", "(\d{3})(\d{5})"); ("nationalPrefixFormattingRule", "$NP$FG")]
  ++ tx "leadingDigits" "[89]"
  ++ tx "format" "$1 $2"
  ++ en "numberFormat"
  ++ st "numberFormat" [("pattern", "(\d{2})(\d{3})(\d{3})"); ("nationalPrefixFormattingRule", "$NP$FG")]
  ++ tx "leadingDigits" "22|3"
  ++ tx "format" "$1 $2 $3"
  ++ en "numberFormat"
  ++ st "numberFormat" [("pattern", "(\d{3})(\d{2})(\d{3})"); ("nationalPrefixFormattingRule", "$NP$FG")]
  ++ tx "leadingDigits" "[25-7]"
  ++ tx "format" "$1 $2 $3"
  ++ en "numberFormat"
  ++ en "availableFormats"
  ++ st "generalDesc" []
  ++ tx "nationalNumberPattern" "(?:[235-7]\d|[89]0)\d{6}"
  ++ en "generalDesc"
  ++ st "fixedLine" []
  ++ em "possibleLengths" [("national", "8")]
  ++ tx "exampleNumber" "22212345"
  ++ tx "nationalNumberPattern" "(?:(?:2[1-9]|3[1-79])\d|5(?:33|5[257]))\d{5}"
  ++ en "fixedLine"
  ++ st "mobile" []
  ++ em "possibleLengths" [("national", "8")]
  ++ tx "exampleNumber" "62112345"
  ++ tx "nationalNumberPattern" "562\d{5}|(?:6\d|7[16-9])\d{6}"
  ++ en "mobile"
  ++ st "tollFree" []
  ++ em "possibleLengths" [("national", "8")]
  ++ tx "exampleNumber" "80012345"
  ++ tx "nationalNumberPattern" "800\d{5}"
  ++ en "tollFree"
  ++ st "premiumRate" []
  ++ em "possibleLengths" [("national", "8")]
  ++ tx "exampleNumber" "90012345"
  ++ tx "nationalNumberPattern" "90[056]\d{5}"
  ++ en "premiumRate"
  ++ st "sharedCost" []
  ++ em "possibleLengths" [("national", "8")]
  ++ tx "exampleNumber" "80812345"
  ++ tx "nationalNumberPattern" "808\d{5}"
  ++ en "sharedCost"
  ++ st "voip" []
  ++ em "possibleLengths" [("national", "8")]
  ++ tx "exampleNumber" "30123456"
  ++ tx "nationalNumberPattern" "3[08]\d{6}"
  ++ en "voip"
  ++ st "uan" []
  ++ em "possibleLengths" [("national", "8")]
  ++ tx "exampleNumber" "80312345"
  ++ tx "nationalNumberPattern" "803\d{5}"
  ++ en "uan"
  ++ en "territory".

Definition ev_136 : list event :=
  st "territory" [("id", "ME"); ("countryCode", "382"); ("internationalPrefix", "00"); ("nationalPrefix", "0")]
  ++ st "availableFormats" []
  ++ st "numberFormat" [("pattern", "(\d{2})(\d{3})(\d{3,4})"); ("nationalPrefixFormattingRule", "$NP$FG")]
  ++ tx "leadingDigits" "[2-9]"
  ++ tx "format" "$1 $2 $3"
  ++ en "numberFormat"
  ++ en "availableFormats"
  ++ st "generalDesc" []
  ++ tx "nationalNumberPattern" "(?:20|[3-79]\d)\d{6}|80\d{6,7}"
  ++ en "generalDesc"
  ++ st "fixedLine" []
  ++ em "possibleLengths" [("national", "8"); ("localOnly", "6")]
  ++ tx "exampleNumber" "30234567"
  ++ tx "nationalNumberPattern" "(?:20[2-8]|3(?:[0-2][2-7]|3[24-7])|4(?:0[2-467]|1[2467])|5(?:0[2467]|1[24-7]|2[2-467]))\d{5}"
  ++ en "fixedLine"
  ++ st "mobile" []
  ++ em "possibleLengths" [("national", "8")]
  ++ tx "exampleNumber" "60123456"
  ++ tx "nationalNumberPattern" "6(?:[07-9]\d|3[024]|6[0-25])\d{5}"
  ++ en "mobile"
  ++ st "tollFree" []
  ++ em "possibleLengths" [("national", "8,9")]
  ++ tx "exampleNumber" "80080002"
  ++ tx "nationalNumberPattern" "80(?:[0-2578]|9\d)\d{5}"
  ++ en "tollFree"
  ++ st "premiumRate" []
  ++ em "possibleLengths" [("national", "8")]
  ++ tx "exampleNumber" "94515151"
  ++ tx "nationalNumberPattern" "9(?:4[1568]|5[178])\d{5}"
  ++ en "premiumRate"
  ++ st "voip" []
  ++ em "possibleLengths" [("national", "8")]
  ++ tx "exampleNumber" "78108780"
  ++ tx "nationalNumberPattern" "78[1-49]\d{5}"
  ++ en "voip"
  ++ st "uan" []
  ++ em "possibleLengths" [("national", "8")]
  ++ tx "exampleNumber" "77273012"
  ++ tx "nationalNumberPattern" "77[1-9]\d{5}"
  ++ en "uan"
  ++ en "territory".

Definition ev_137 : list event :=
  st "territory" [("id", "MF"); ("countryCode", "590"); ("internationalPrefix", "00"); ("nationalPrefix", "0"); ("mobileNumberPortableRegion", "true")]
  ++ st "generalDesc" []
  ++ tx "nationalNumberPattern" "7090\d{5}|(?:[56]9|[89]\d)\d{7}"
  ++ en "generalDesc"
  ++ st "fixedLine" []
  ++ em "possibleLengths" [("national", "9")]
  ++ tx "exampleNumber" "590271234"
  ++ tx "nationalNumberPattern" "(?:59(?:0(?:0[079]|[14]3|[27][79]|3[03-7]|5[0-268]|87)|87\d)|80[6-9]\d\d)\d{4}"
  ++ en "fixedLine"
  ++ st "mobile" []
  ++ em "possibleLengths" [("national", "9")]
  ++ tx "exampleNumber" "690001234"
  ++ tx "nationalNumberPattern" "(?:69(?:0\d\d|1(?:2[2-9]|3[0-5]))|7090[0-4])\d{4}"
  ++ en "mobile"
  ++ st "tollFree" []
  ++ em "possibleLengths" [("national", "9")]
  ++ tx "exampleNumber" "800012345"
  ++ tx "nationalNumberPattern" "80[0-5]\d{6}"
  ++ en "tollFree"
  ++ st "premiumRate" []
  ++ em "possibleLengths" [("national", "9")]
  ++ tx "exampleNumber" "810123456"
  ++ tx "nationalNumberPattern" "8[129]\d{7}"
  ++ en "premiumRate"
  ++ st "voip" []
  ++ em "possibleLengths" [("national", "9")]
  ++ tx "exampleNumber" "976012345"
  ++ tx "nationalNumberPattern" "9(?:(?:39[5-7]|76[018])\d|475[0-6])\d{4}"
  ++ en "voip"
  ++ en "territory".

Definition ev_138 : list event :=
  st "territory" [("id", "MG"); ("countryCode", "261"); ("internationalPrefix", "00"); ("nationalPrefix", "0"); ("nationalPrefixForParsing", "([24-9]\d{6})$|0"); ("nationalPrefixTransformRule", "20$1")]
  ++ st "availableFormats" []
  ++ st "numberFormat" [("pattern", "(\d{2})(\d{2})(\d{3})(\d{2})"); ("nationalPrefixFormattingRule", "$NP$FG")]
  ++ tx "leadingDigits" "[23]"
  ++ tx "format" "$1 $2 $3 $4"
  ++ en "numberFormat"
  ++ en "availableFormats"
  ++ st "generalDesc" []
  ++ tx "nationalNumberPattern" "[23]\d{8}"
  ++ en "generalDesc"
  ++ st "fixedLine" []
  ++ em "possibleLengths" [("national", "9"); ("localOnly", "7")]
  ++ tx "exampleNumber" "202123456"
  ++ tx "nationalNumberPattern" "2072[29]\d{4}|20(?:2\d|4[47]|5[3467]|6[279]|7[356]|8[268]|9[2457])\d{5}"
  ++ en "fixedLine"
  ++ st "mobile" []
  ++ em "possibleLengths" [("national", "9")]
  ++ tx "exampleNumber" "321234567"
  ++ tx "nationalNumberPattern" "3[2-9]\d{7}"
  ++ en "mobile"
  ++ st "voip" []
  ++ em "possibleLengths" [("national", "9")]
  ++ tx "exampleNumber" "221234567"
  ++ tx "nationalNumberPattern" "22\d{7}"
  ++ en "voip"
  ++ en "territory".

Definition ev_139 : list event :=
  st "territory" [("id", "MH"); ("countryCode", "692"); ("internationalPrefix", "011"); ("nationalPrefix", "1")]
  ++ st "availableFormats" []
  ++ st "numberFormat" [("pattern", "(\d{3})(\d{4})")]
  ++ tx "leadingDigits" "[2-6]"
  ++ tx "format" "$1-$2"
  ++ en "numberFormat"
  ++ en "availableFormats"
  ++ st "generalDesc" []
  ++ tx "nationalNumberPattern" "329\d{4}|(?:[256]\d|45)\d{5}"
  ++ en "generalDesc"
  ++ st "fixedLine" []
  ++ em "possibleLengths" [("national", "7")]
  ++ tx "exampleNumber" "2471234"
  ++ tx "nationalNumberPattern" "(?:247|528|625)\d{4}"
  ++ en "fixedLine"
  ++ st "mobile" []
  ++ em "possibleLengths" [("national", "7")]
  ++ tx "exampleNumber" "2351234"
  ++ tx "nationalNumberPattern" "(?:(?:23|54)5|329|45[35-8])\d{4}"
  ++ en "mobile"
  ++ st "voip" []
  ++ em "possibleLengths" [("national", "7")]
  ++ tx "exampleNumber" "6351234"
  ++ tx "nationalNumberPattern" "635\d{4}"
  ++ en "voip"
  ++ en "territory".

Definition ev_140 : list event :=
  st "territory" [("id", "MK"); ("countryCode", "389"); ("internationalPrefix", "00"); ("nationalPrefix", "0"); ("mobileNumberPortableRegion", "true")]
  ++ st "availableFormats" []
  ++ st "numberFormat" [("pattern", "(\d)(\d{3})(\d{4})"); ("nationalPrefixFormattingRule", "$NP$FG")]
  ++ tx "leadingDigits" "2|34[47]|4(?:[37]7|5[47]|64)"
  ++ tx "format" "$1 $2 $3"
  ++ en "numberFormat"
  ++ st "numberFormat" [("pattern", "(\d{2})(\d{3})(\d{3})"); ("nationalPrefixFormattingRule", "$NP$FG")]
  ++ tx "leadingDigits" "[347]"
  ++ tx "format" "$1 $2 $3"
  ++ en "numberFormat"
  ++ st "numberFormat" [("pattern", "(\d{3})(\d)(\d{2})(\d{2})"); ("nationalPrefixFormattingRule", "$NP$FG")]
  ++ tx "leadingDigits" "[58]"
  ++ tx "format" "$1 $2 $3 $4"
  ++ en "numberFormat"
  ++ en "availableFormats"
  ++ st "generalDesc" []
  ++ tx "nationalNumberPattern" "[2-578]\d{7}"
  ++ en "generalDesc"
  ++ st "fixedLine" []
  ++ em "possibleLengths" [("national", "8"); ("localOnly", "6,7")]
  ++ tx "exampleNumber" "22012345"
  ++ tx "nationalNumberPattern" "(?:(?:2(?:62|77)0|3444)\d|4[56]440)\d{3}|(?:34|4[357])700\d{3}|(?:2(?:[0-3]\d|5[0-578]|6[01]|82)|3(?:1[3-68]|[23][2-68]|4[23568])|4(?:[23][2-68]|4[3-68]|5[2568]|6[25-8]|7[24-68]|8[4-68]))\d{5}"
  ++ en "fixedLine"
  ++ st "mobile" []
  ++ em "possibleLengths" [("national", "8")]
  ++ tx "exampleNumber" "72345678"
  ++ tx "nationalNumberPattern" "7(?:3555|(?:474|9[019]7)7)\d{3}|7(?:[0-25-8]\d\d|3(?:[1-478]\d|6[01])|4(?:2\d|60|7[01578])|9(?:[2-4]\d|5[01]|7[015]))\d{4}"
  ++ en "mobile"
  ++ st "tollFree" []
  ++ em "possibleLengths" [("national", "8")]
  ++ tx "exampleNumber" "80012345"
  ++ tx "nationalNumberPattern" "800\d{5}"
  ++ en "tollFree"
  ++ st "premiumRate" []
  ++ em "possibleLengths" [("national", "8")]
  ++ tx "exampleNumber" "50012345"
  ++ tx "nationalNumberPattern" "5\d{7}"
  ++ en "premiumRate"
  ++ st "sharedCost" []
  ++ em "possibleLengths" [("national", "8")]
  ++ tx "exampleNumber" "80123456"
  ++ tx "nationalNumberPattern" "8(?:0[1-9]|[1-9]\d)\d{5}"
  ++ en "sharedCost"
  ++ en "territory".

Definition ev_141 : list event :=
  st "territory" [("id", "ML"); ("countryCode", "223"); ("internationalPrefix", "00")]
  ++ st "availableFormats" []
  ++ st "numberFormat" [("pattern", "(\d{4})")]
  ++ tx "leadingDigits" "67[057-9]|74[045]"
  ++ tx "leadingDigits" "67(?:0[09]|[59]9|77|8[89])|74(?:0[02]|44|55)"
  ++ tx "format" "$1"
  ++ tx "intlFormat" "NA"
  ++ en "numberFormat"
  ++ st "numberFormat" [("pattern", "(\d{2})(\d{2})(\d{2})(\d{2})")]
  ++ tx "leadingDigits" "[24-9]"
  ++ tx "format" "$1 $2 $3 $4"
  ++ en "numberFormat"
  ++ en "availableFormats"
  ++ st "generalDesc" []
  ++ tx "nationalNumberPattern" "[24-9]\d{7}"
  ++ en "generalDesc"
  ++ st "noInternationalDialling" []
  ++ em "possibleLengths" [("national", "8")]
  ++ tx "nationalNumberPattern" "80\d{6}"
  ++ en "noInternationalDialling"
  ++ st "fixedLine" []
  ++ em "possibleLengths" [("national", "8")]
  ++ tx "exampleNumber" "20212345"
  ++ tx "nationalNumberPattern" "2(?:07[0-8]|12[67])\d{4}|(?:2(?:02|1[4-689])|4(?:0[0-4]|4[1-59]))\d{5}"
  ++ en "fixedLine"
  ++ st "mobile" []
  ++ em "possibleLengths" [("national", "8")]
  ++ tx "exampleNumber" "65012345"
  ++ tx "nationalNumberPattern" "2(?:0(?:01|79)|17\d)\d{4}|(?:5[0-3]|[679]\d|8[2-59])\d{6}"
  ++ en "mobile"
  ++ st "tollFree" []
  ++ em "possibleLengths" [("national", "8")]
  ++ tx "exampleNumber" "80012345"
  ++ tx "nationalNumberPattern" "80\d{6}"
  ++ en "tollFree"
  ++ en "territory".

Definition ev_142 : list event :=
  st "territory" [("id", "MM"); ("countryCode", "95"); ("internationalPrefix", "00"); ("nationalPrefix", "0")]
  ++ st "availableFormats" []
  ++ st "numberFormat" [("pattern", "(\d)(\d{2})(\d{3})"); ("nationalPrefixFormattingRule", "$NP$FG")]
  ++ tx "leadingDigits" "16|2"
  ++ tx "format" "$1 $2 $3"
  ++ en "numberFormat"
  ++ st "numberFormat" [("pattern", "(\d{2})(\d{2})(\d{3})"); ("nationalPrefixFormattingRule", "$NP$FG")]
  ++ tx "leadingDigits" "4(?:[2-46]|5[3-5])|5|6(?:[1-689]|7[235-7])|7(?:[0-4]|5[2-7])|8[1-5]|(?:60|86)[23]"
  ++ tx "format" "$1 $2 $3"
  ++ en "numberFormat"
  ++ st "numberFormat" [("pattern", "(\d)(\d{3})(\d{3,4})"); ("nationalPrefixFormattingRule", "$NP$FG")]
  ++ tx "leadingDigits" "[12]|452|678|86"
  ++ tx "leadingDigits" "[12]|452|6788|86"
  ++ tx "format" "$1 $2 $3"
  ++ en "numberFormat"
  ++ st "numberFormat" [("pattern", "(\d{2})(\d{3})(\d{3,4})"); ("nationalPrefixFormattingRule", "$NP$FG")]
  ++ tx "leadingDigits" "[4-7]|8[1-35]"
  ++ tx "format" "$1 $2 $3"
  ++ en "numberFormat"
  ++ st "numberFormat" [("pattern", "(\d)(\d{3})(\d{4,6})"); ("nationalPrefixFormattingRule", "$NP$FG")]
  ++ tx "leadingDigits" "9(?:2[0-4]|[35-9]|4[137-9])"
  ++ tx "format" "$1 $2 $3"
  ++ en "numberFormat"
  ++ st "numberFormat" [("pattern", "(\d)(\d{4})(\d{4})"); ("nationalPrefixFormattingRule", "$NP$FG")]
  ++ tx "leadingDigits" "2"
  ++ tx "format" "$1 $2 $3"
  ++ en "numberFormat"
  ++ st "numberFormat" [("pattern", "(\d{3})(\d{3})(\d{4})"); ("nationalPrefixFormattingRule", "$NP$FG")]
  ++ tx "leadingDigits" "8"
  ++ tx "format" "$1 $2 $3"
  ++ en "numberFormat"
  ++ st "numberFormat" [("pattern", "(\d)(\d{3})(\d{3})(\d{3})"); ("nationalPrefixFormattingRule", "$NP$FG")]
  ++ tx "leadingDigits" "92"
  ++ tx "format" "$1 $2 $3 $4"
  ++ en "numberFormat"
  ++ st "numberFormat" [("pattern", "(\d)(\d{5})(\d{4})"); ("nationalPrefixFormattingRule", "$NP$FG")]
  ++ tx "leadingDigits" "9"
  ++ tx "format" "$1 $2 $3"
  ++ en "numberFormat"
  ++ en "availableFormats"
  ++ st "generalDesc" []
  ++ tx "nationalNumberPattern" "1\d{5,7}|95\d{6}|(?:[4-7]|9[0-46-9])\d{6,8}|(?:2|8\d)\d{5,8}"
  ++ en "generalDesc"
  ++ st "fixedLine" []
  ++ em "possibleLengths" [("national", "[6-9]"); ("localOnly", "5")]
  ++ tx "exampleNumber" "1234567"
  ++ tx "nationalNumberPattern" "(?:1(?:(?:12|[28]\d|3[56]|7[3-6]|9[0-6])\d|4(?:2[29]|7[0-2]|83)|6)|2(?:2(?:00|8[34])|4(?:0\d|22|7[0-2]|83)|51\d\d)|4(?:2(?:2\d\d|48[013])|3(?:20\d|4(?:70|83)|56)|420\d|5(?:2\d|470))|6(?:0(?:[23]|88\d)|(?:124|[56]2\d)\d|2472|3(?:20\d|470)|4(?:2[04]\d|472)|7(?:3\d\d|4[67]0|8(?:[01459]\d|8))))\d{4}|5(?:2(?:2\d{5,6}|47[02]\d{4})|(?:3472|4(?:2(?:1|86)|470)|522\d|6(?:20\d|483)|7(?:20\d|48[01])|8(?:20\d|47[02])|9(?:20\d|470))\d{4})|7(?:(?:0470|4(?:25\d|470)|5(?:202|470|96\d))\d{4}|1(?:20\d{4,5}|4(?:70|83)\d{4}))|8(?:1(?:2\d{5,6}|4(?:10|7[01]\d)\d{3})|2(?:2\d{5,6}|(?:320|490\d)\d{3})|(?:3(?:2\d\d|470)|4[24-7]|5(?:(?:2\d|51)\d|4(?:[1-35-9]\d|4[0-57-9]))|6[23])\d{4})|(?:1[2-6]\d|4(?:2[24-8]|3[2-7]|[46][2-6]|5[3-5])|5(?:[27][2-8]|3[2-68]|4[24-8]|5[23]|6[2-4]|8[24-7]|9[2-7])|6(?:[19]20|42[03-6]|(?:52|7[45])\d)|7(?:[04][24-8]|[15][2-7]|22|3[2-4])|8(?:1[2-689]|2[2-8]|(?:[35]2|64)\d))\d{4}|25\d{5,6}|(?:2[2-9]|6(?:1[2356]|[24][2-6]|3[24-6]|5[2-4]|6[2-8]|7[235-7]|8[245]|9[24])|8(?:3[24]|5[245]))\d{4}"
  ++ en "fixedLine"
  ++ st "mobile" []
  ++ em "possibleLengths" [("national", "[7-10]")]
  ++ tx "exampleNumber" "92123456"
  ++ tx "nationalNumberPattern" "(?:17[01]|9(?:2(?:[0-4]|[56]\d\d)|(?:3(?:[0-36]|4\d)|(?:6\d|8[89]|9[4-8])\d|7(?:3|40|[5-9]\d))\d|4(?:(?:[0245]\d|[1379])\d|88)|5[0-6])\d)\d{4}|9[69]1\d{6}|9(?:[68]\d|9[089])\d{5}"
  ++ en "mobile"
  ++ st "tollFree" []
  ++ em "possibleLengths" [("national", "10")]
  ++ tx "exampleNumber" "8008001234"
  ++ tx "nationalNumberPattern" "80080(?:0[1-9]|2\d)\d{3}"
  ++ en "tollFree"
  ++ st "voip" []
  ++ em "possibleLengths" [("national", "8")]
  ++ tx "exampleNumber" "13331234"
  ++ tx "nationalNumberPattern" "1333\d{4}"
  ++ en "voip"
  ++ en "territory".

Definition ev_143 : list event :=
  st "territory" [("id", "MN"); ("countryCode", "976"); ("internationalPrefix", "001"); ("nationalPrefix", "0")]
  ++ st "availableFormats" []
  ++ st "numberFormat" [("pattern", "(\d{2})(\d{2})(\d{4})"); ("nationalPrefixFormattingRule", "$NP$FG")]
  ++ tx "leadingDigits" "11|2[16]"
  ++ tx "format" "$1 $2 $3"
  ++ en "numberFormat"
  ++ st "numberFormat" [("pattern", "(\d{4})(\d{4})")]
  ++ tx "leadingDigits" "[5-9]"
  ++ tx "format" "$1 $2"
  ++ en "numberFormat"
  ++ st "numberFormat" [("pattern", "(\d{3})(\d{5,6})"); ("nationalPrefixFormattingRule", "$NP$FG")]
  ++ tx "leadingDigits" "[12]2[1-3]"
  ++ tx "format" "$1 $2"
  ++ en "numberFormat"
  ++ st "numberFormat" [("pattern", "(\d{4})(\d{5,6})"); ("nationalPrefixFormattingRule", "$NP$FG")]
  ++ tx "leadingDigits" "[12](?:27|3[2-8]|4[2-68]|5[1-4689])"
  ++ tx "leadingDigits" "[12](?:27|3[2-8]|4[2-68]|5[1-4689])[0-3]"
  ++ tx "format" "$1 $2"
  ++ en "numberFormat"
  ++ st "numberFormat" [("pattern", "(\d{5})(\d{4,5})"); ("nationalPrefixFormattingRule", "$NP$FG")]
  ++ tx "leadingDigits" "[12]"
  ++ tx "format" "$1 $2"
  ++ en "numberFormat"
  ++ en "availableFormats"
  ++ st "generalDesc" []
  ++ tx "nationalNumberPattern" "[12]\d{7,9}|[5-9]\d{7}"
  ++ en "generalDesc"
  ++ st "fixedLine" []
  ++ em "possibleLengths" [("national", "[8-10]"); ("localOnly", "[4-6]")]
  ++ tx "exampleNumber" "53123456"
  ++ tx "nationalNumberPattern" "[12](?:2[1-3]|(?:3[2-8]|4[2-68]|5[1-4689])\d)\d{5,6}|7(?:0(?:[0-5]\d|7[078]|80)|128)\d{4}|[12]27\d{6}|(?:11|2[16]|5[368])\d{6}"
  ++ en "fixedLine"
  ++ st "mobile" []
  ++ em "possibleLengths" [("national", "8")]
  ++ tx "exampleNumber" "88123456"
  ++ tx "nationalNumberPattern" "(?:87[01]|92[0139])\d{5}|(?:5[05]|6[069]|7[28]|8[0135689]|9[013-9])\d{6}"
  ++ en "mobile"
  ++ st "voip" []
  ++ em "possibleLengths" [("national", "8")]
  ++ tx "exampleNumber" "75123456"
  ++ tx "nationalNumberPattern" "712[0-79]\d{4}|7(?:1[013-9]|[5-79]\d)\d{5}"
  ++ en "voip"
  ++ en "territory".

Definition ev_144 : list event :=
  st "territory" [("id", "MO"); ("countryCode", "853"); ("internationalPrefix", "00")]
  ++ st "availableFormats" []
  ++ st "numberFormat" [("pattern", "(\d{4})(\d{3})")]
  ++ tx "leadingDigits" "0"
  ++ tx "format" "$1 $2"
  ++ en "numberFormat"
  ++ st "numberFormat" [("pattern", "(\d{4})(\d{4})")]
  ++ tx "leadingDigits" "[268]"
  ++ tx "format" "$1 $2"
  ++ en "numberFormat"
  ++ en "availableFormats"
  ++ st "generalDesc" []
  ++ tx "nationalNumberPattern" "0800\d{3}|(?:28|[68]\d)\d{6}"
  ++ en "generalDesc"
  ++ st "fixedLine" []
  ++ em "possibleLengths" [("national", "8")]
  ++ tx "exampleNumber" "28212345"
  ++ tx "nationalNumberPattern" "(?:28[2-9]|8(?:11|[2-57-9]\d))\d{5}"
  ++ en "fixedLine"
  ++ st "mobile" []
  ++ em "possibleLengths" [("national", "8")]
  ++ tx "exampleNumber" "66123456"
  ++ tx "nationalNumberPattern" "6800[0-79]\d{3}|6(?:[235]\d\d|6(?:0[0-5]|[1-9]\d)|8(?:0[1-9]|[14-8]\d|2[5-9]|[39][0-4]))\d{4}"
  ++ en "mobile"
  ++ st "tollFree" []
  ++ em "possibleLengths" [("national", "7")]
  ++ tx "exampleNumber" "0800501"
  ++ tx "nationalNumberPattern" "0800\d{3}"
  ++ en "tollFree"
  ++ en "territory".

Definition ev_145 : list event :=
  st "territory" [("id", "MP"); ("countryCode", "1"); ("leadingDigits", "670"); ("internationalPrefix", "011"); ("nationalPrefix", "1"); ("nationalPrefixForParsing", "([2-9]\d{6})$|1"); ("nationalPrefixTransformRule", "670$1")]
  ++ st "generalDesc" []
  ++ tx "nationalNumberPattern" "[58]\d{9}|(?:67|90)0\d{7}"
  ++ en "generalDesc"
  ++ st "fixedLine" []
  ++ em "possibleLengths" [("national", "10"); ("localOnly", "7")]
  ++ tx "exampleNumber" "6702345678"
  ++ tx "nationalNumberPattern" "670(?:2(?:3[3-7]|56|8[4-8])|32[1-38]|4(?:33|8[348])|5(?:32|55|88)|6(?:64|70|82)|78[3589]|8[3-9]8|989)\d{4}"
  ++ en "fixedLine"
  ++ st "mobile" []
  ++ em "possibleLengths" [("national", "10"); ("localOnly", "7")]
  ++ tx "exampleNumber" "6702345678"
  ++ tx "nationalNumberPattern" "670(?:2(?:3[3-7]|56|8[4-8])|32[1-38]|4(?:33|8[348])|5(?:32|55|88)|6(?:64|70|82)|78[3589]|8[3-9]8|989)\d{4}"
  ++ en "mobile"
  ++ st "tollFree" []
  ++ em "possibleLengths" [("national", "10")]
  ++ tx "exampleNumber" "8002123456"
  ++ tx "nationalNumberPattern" "8(?:00|33|44|55|66|77|88)[2-9]\d{6}"
  ++ en "tollFree"
  ++ st "premiumRate" []
  ++ em "possibleLengths" [("national", "10")]
  ++ tx "exampleNumber" "9002123456"
  ++ tx "nationalNumberPattern" "900[2-9]\d{6}"
  ++ en "premiumRate"
  ++ st "personalNumber" []
  ++ em "possibleLengths" [("national", "10")]
  ++ tx "exampleNumber" "5002345678"
  ++ tx "nationalNumberPattern" "52(?:3(?:[2-46-9][02-9]\d|5(?:[02-46-9]\d|5[0-46-9]))|4(?:[2-478][02-9]\d|5(?:[034]\d|2[024-9]|5[0-46-9])|6(?:0[1-9]|[2-9]\d)|9(?:[05-9]\d|2[0-5]|49)))\d{4}|52[34][2-9]1[02-9]\d{4}|5(?:00|2[125-9]|3[23]|44|66|77|88)[2-9]\d{6}"
  ++ en "personalNumber"
  ++ en "territory".

Definition ev_146 : list event :=
  st "territory" [("id", "MQ"); ("countryCode", "596"); ("internationalPrefix", "00"); ("nationalPrefix", "0"); ("mobileNumberPortableRegion", "true")]
  ++ st "availableFormats" []
  ++ st "numberFormat" [("pattern", "(\d{3})(\d{2})(\d{2})(\d{2})"); ("nationalPrefixFormattingRule", "$NP$FG")]
  ++ tx "leadingDigits" "[5-79]|8(?:0[6-9]|[36])"
  ++ tx "format" "$1 $2 $3 $4"
  ++ en "numberFormat"
  ++ st "numberFormat" [("pattern", "(\d{3})(\d{2})(\d{2})(\d{2})"); ("nationalPrefixFormattingRule", "$NP$FG")]
  ++ tx "leadingDigits" "8"
  ++ tx "format" "$1 $2 $3 $4"
  ++ en "numberFormat"
  ++ en "availableFormats"
  ++ st "generalDesc" []
  ++ tx "nationalNumberPattern" "7091\d{5}|(?:[56]9|[89]\d)\d{7}"
  ++ en "generalDesc"
  ++ st "fixedLine" []
  ++ em "possibleLengths" [("national", "9")]
  ++ tx "exampleNumber" "596301234"
  ++ tx "nationalNumberPattern" "(?:59(?:6(?:[03-7]\d|1[05]|2[7-9]|8[0-39]|9[04-9])|89\d)|80[6-9]\d\d|9(?:477[6-9]|767[4589]))\d{4}"
  ++ en "fixedLine"
  ++ st "mobile" []
  ++ em "possibleLengths" [("national", "9")]
  ++ tx "exampleNumber" "696201234"
  ++ tx "nationalNumberPattern" "(?:69[67]\d\d|7091[0-3])\d{4}"
  ++ en "mobile"
  ++ st "tollFree" []
  ++ em "possibleLengths" [("national", "9")]
  ++ tx "exampleNumber" "800012345"
  ++ tx "nationalNumberPattern" "80[0-5]\d{6}"
  ++ en "tollFree"
  ++ st "premiumRate" []
  ++ em "possibleLengths" [("national", "9")]
  ++ tx "exampleNumber" "810123456"
  ++ tx "nationalNumberPattern" "8[129]\d{7}"
  ++ en "premiumRate"
  ++ st "voip" []
  ++ em "possibleLengths" [("national", "9")]
  ++ tx "exampleNumber" "976612345"
  ++ tx "nationalNumberPattern" "9(?:397[0-3]|477[0-5]|76(?:6\d|7[0-367]))\d{4}"
  ++ en "voip"
  ++ en "territory".

Definition ev_147 : list event :=
  st "territory" [("id", "MR"); ("countryCode", "222"); ("internationalPrefix", "00")]
  ++ st "availableFormats" []
  ++ st "numberFormat" [("pattern", "(\d{2})(\d{2})(\d{2})(\d{2})")]
  ++ tx "leadingDigits" "[2-48]"
  ++ tx "format" "$1 $2 $3 $4"
  ++ en "numberFormat"
  ++ en "availableFormats"
  ++ st "generalDesc" []
  ++ tx "nationalNumberPattern" "(?:[2-4]\d\d|800)\d{5}"
  ++ en "generalDesc"
  ++ st "fixedLine" []
  ++ em "possibleLengths" [("national", "8")]
  ++ tx "exampleNumber" "35123456"
  ++ tx "nationalNumberPattern" "(?:25[08]|35\d|45[1-7])\d{5}"
  ++ en "fixedLine"
  ++ st "mobile" []
  ++ em "possibleLengths" [("national", "8")]
  ++ tx "exampleNumber" "22123456"
  ++ tx "nationalNumberPattern" "[2-4][0-46-9]\d{6}"
  ++ en "mobile"
  ++ st "tollFree" []
  ++ em "possibleLengths" [("national", "8")]
  ++ tx "exampleNumber" "80012345"
  ++ tx "nationalNumberPattern" "800\d{5}"
  ++ en "tollFree"
  ++ en "territory".

Definition ev_148 : list event :=
  st "territory" [("id", "MS"); ("countryCode", "1"); ("leadingDigits", "664"); ("internationalPrefix", "011"); ("nationalPrefix", "1"); ("nationalPrefixForParsing", "([34]\d{6})$|1"); ("nationalPrefixTransformRule", "664$1"); ("mobileNumberPortableRegion", "true")]
  ++ st "generalDesc" []
  ++ tx "nationalNumberPattern" "(?:[58]\d\d|664|900)\d{7}"
  ++ en "generalDesc"
  ++ st "fixedLine" []
  ++ em "possibleLengths" [("national", "10"); ("localOnly", "7")]
  ++ tx "exampleNumber" "6644912345"
  ++ tx "nationalNumberPattern" "6644(?:1[0-3]|91)\d{4}"
  ++ en "fixedLine"
  ++ st "mobile" []
  ++ em "possibleLengths" [("national", "10"); ("localOnly", "7")]
  ++ tx "exampleNumber" "6644923456"
  ++ tx "nationalNumberPattern" "664(?:3(?:49|9[1-6])|49[2-6])\d{4}"
  ++ en "mobile"
  ++ st "tollFree" []
  ++ em "possibleLengths" [("national", "10")]
  ++ tx "exampleNumber" "8002123456"
  ++ tx "nationalNumberPattern" "8(?:00|33|44|55|66|77|88)[2-9]\d{6}"
  ++ en "tollFree"
  ++ st "premiumRate" []
  ++ em "possibleLengths" [("national", "10")]
  ++ tx "exampleNumber" "9002123456"
  ++ tx "nationalNumberPattern" "900[2-9]\d{6}"
  ++ en "premiumRate"
  ++ st "personalNumber" []
  ++ em "possibleLengths" [("national", "10")]
  ++ tx "exampleNumber" "5002345678"
  ++ tx "nationalNumberPattern" "52(?:3(?:[2-46-9][02-9]\d|5(?:[02-46-9]\d|5[0-46-9]))|4(?:[2-478][02-9]\d|5(?:[034]\d|2[024-9]|5[0-46-9])|6(?:0[1-9]|[2-9]\d)|9(?:[05-9]\d|2[0-5]|49)))\d{4}|52[34][2-9]1[02-9]\d{4}|5(?:00|2[125-9]|3[23]|44|66|77|88)[2-9]\d{6}"
  ++ en "personalNumber"
  ++ en "territory".

Definition ev_149 : list event :=
  st "territory" [("id", "MT"); ("countryCode", "356"); ("internationalPrefix", "00"); ("mobileNumberPortableRegion", "true")]
  ++ st "availableFormats" []
  ++ st "numberFormat" [("pattern", "(\d{4})(\d{4})")]
  ++ tx "leadingDigits" "[2357-9]"
  ++ tx "format" "$1 $2"
  ++ en "numberFormat"
  ++ en "availableFormats"
  ++ st "generalDesc" []
  ++ tx "nationalNumberPattern" "3550\d{4}|(?:[2579]\d\d|800)\d{5}"
  ++ en "generalDesc"
  ++ st "fixedLine" []
  ++ em "possibleLengths" [("national", "8")]
  ++ tx "exampleNumber" "21001234"
  ++ tx "nationalNumberPattern" "20(?:3[1-4]|6[059])\d{4}|2(?:0[19]|[1-357]\d|60)\d{5}"
  ++ en "fixedLine"
  ++ st "mobile" []
  ++ em "possibleLengths" [("national", "8")]
  ++ tx "exampleNumber" "96961234"
  ++ tx "nationalNumberPattern" "(?:7(?:210|[79]\d\d)|9(?:[29]\d\d|69[67]|8(?:1[1-3]|89|97)))\d{4}"
  ++ en "mobile"
  ++ st "pager" []
  ++ em "possibleLengths" [("national", "8")]
  ++ tx "exampleNumber" "71171234"
  ++ tx "nationalNumberPattern" "7117\d{4}"
  ++ en "pager"
  ++ st "tollFree" []
  ++ em "possibleLengths" [("national", "8")]
  ++ tx "exampleNumber" "80071234"
  ++ tx "nationalNumberPattern" "800(?:02|[3467]\d)\d{3}"
  ++ en "tollFree"
  ++ st "premiumRate" []
  ++ em "possibleLengths" [("national", "8")]
  ++ tx "exampleNumber" "50037123"
  ++ tx "nationalNumberPattern" "5(?:0(?:0(?:37|43)|(?:6\d|70|9[0168])\d)|[12]\d0[1-5])\d{3}"
  ++ en "premiumRate"
  ++ st "voip" []
  ++ em "possibleLengths" [("national", "8")]
  ++ tx "exampleNumber" "35501234"
  ++ tx "nationalNumberPattern" "3550\d{4}"
  ++ en "voip"
  ++ st "uan" []
  ++ em "possibleLengths" [("national", "8")]
  ++ tx "exampleNumber" "50112345"
  ++ tx "nationalNumberPattern" "501\d{5}"
  ++ en "uan"
  ++ en "territory".

Definition ev_150 : list event :=
  st "territory" [("id", "MU"); ("countryCode", "230"); ("preferredInternationalPrefix", "020"); ("internationalPrefix", "0(?:0|[24-7]0|3[03])")]
  ++ st "availableFormats" []
  ++ st "numberFormat" [("pattern", "(\d{3})(\d{4})")]
  ++ tx "leadingDigits" "[2-46]|8[013]"
  ++ tx "format" "$1 $2"
  ++ en "numberFormat"
  ++ st "numberFormat" [("pattern", "(\d{4})(\d{4})")]
  ++ tx "leadingDigits" "[57]"
  ++ tx "format" "$1 $2"
  ++ en "numberFormat"
  ++ st "numberFormat" [("pattern", "(\d{5})(\d{5})")]
  ++ tx "leadingDigits" "8"
  ++ tx "format" "$1 $2"
  ++ en "numberFormat"
  ++ en "availableFormats"
  ++ st "generalDesc" []
  ++ tx "nationalNumberPattern" "(?:[57]|8\d\d)\d{7}|[2-468]\d{6}"
  ++ en "generalDesc"
  ++ st "fixedLine" []
  ++ em "possibleLengths" [("national", "7,8")]
  ++ tx "exampleNumber" "54480123"
  ++ tx "nationalNumberPattern" "(?:2(?:[0346-8]\d|1[0-8])|4(?:[013568]\d|2[0-24-8]|71|90)|54(?:[3-5]\d|71)|6\d\d|8(?:14|3[129]))\d{4}"
  ++ en "fixedLine"
  ++ st "mobile" []
  ++ em "possibleLengths" [("national", "8")]
  ++ tx "exampleNumber" "52512345"
  ++ tx "nationalNumberPattern" "5(?:4(?:2[1-389]|7[1-9])|87[15-8])\d{4}|(?:5(?:2[5-9]|4[3-689]|[57]\d|8[0-689]|9[0-8])|7(?:0[0-7]|3[013]))\d{5}"
  ++ en "mobile"
  ++ st "pager" []
  ++ em "possibleLengths" [("national", "7")]
  ++ tx "exampleNumber" "2190123"
  ++ tx "nationalNumberPattern" "219\d{4}"
  ++ en "pager"
  ++ st "tollFree" []
  ++ em "possibleLengths" [("national", "7,10")]
  ++ tx "exampleNumber" "8001234"
  ++ tx "nationalNumberPattern" "802\d{7}|80[0-2]\d{4}"
  ++ en "tollFree"
  ++ st "premiumRate" []
  ++ em "possibleLengths" [("national", "7")]
  ++ tx "exampleNumber" "3012345"
  ++ tx "nationalNumberPattern" "30\d{5}"
  ++ en "premiumRate"
  ++ st "voip" []
  ++ em "possibleLengths" [("national", "7")]
  ++ tx "exampleNumber" "3201234"
  ++ tx "nationalNumberPattern" "3(?:20|9\d)\d{4}"
  ++ en "voip"
  ++ en "territory".

Definition ev_151 : list event :=
  st "territory" [("id", "MV"); ("countryCode", "960"); ("preferredInternationalPrefix", "00"); ("internationalPrefix", "0(?:0|19)")]
  ++ st "availableFormats" []
  ++ st "numberFormat" [("pattern", "(\d{3})(\d{4})")]
  ++ tx "leadingDigits" "[34679]"
  ++ tx "format" "$1-$2"
  ++ en "numberFormat"
  ++ st "numberFormat" [("pattern", "(\d{3})(\d{3})(\d{4})")]
  ++ tx "leadingDigits" "[89]"
  ++ tx "format" "$1 $2 $3"
  ++ en "numberFormat"
  ++ en "availableFormats"
  ++ st "generalDesc" []
  ++ tx "nationalNumberPattern" "(?:800|9[0-57-9]\d)\d{7}|[34679]\d{6}"
  ++ en "generalDesc"
  ++ st "fixedLine" []
  ++ em "possibleLengths" [("national", "7")]
  ++ tx "exampleNumber" "6701234"
  ++ tx "nationalNumberPattern" "(?:3(?:0[0-4]|3[0-59])|6(?:[58][024689]|6[024-68]|7[02468]))\d{4}"
  ++ en "fixedLine"
  ++ st "mobile" []
  ++ em "possibleLengths" [("national", "7")]
  ++ tx "exampleNumber" "7712345"
  ++ tx "nationalNumberPattern" "(?:46[46]|[79]\d\d)\d{4}"
  ++ en "mobile"
  ++ st "tollFree" []
  ++ em "possibleLengths" [("national", "10")]
  ++ tx "exampleNumber" "8001234567"
  ++ tx "nationalNumberPattern" "800\d{7}"
  ++ en "tollFree"
  ++ st "premiumRate" []
  ++ em "possibleLengths" [("national", "10")]
  ++ tx "exampleNumber" "9001234567"
  ++ tx "nationalNumberPattern" "900\d{7}"
  ++ en "premiumRate"
  ++ st "uan" []
  ++ em "possibleLengths" [("national", "7")]
  ++ tx "exampleNumber" "4001234"
  ++ tx "nationalNumberPattern" "4(?:0[01]|50)\d{4}"
  ++ en "uan"
  ++ en "territory".

Definition ev_152 : list event :=
  st "territory" [("id", "MW"); ("countryCode", "265"); ("internationalPrefix", "00"); ("nationalPrefix", "0")]
  ++ st "availableFormats" []
  ++ st "numberFormat" [("pattern", "(\d)(\d{3})(\d{3})"); ("nationalPrefixFormattingRule", "$NP$FG")]
  ++ tx "leadingDigits" "1[2-9]"
  ++ tx "format" "$1 $2 $3"
  ++ en "numberFormat"
  ++ st "numberFormat" [("pattern", "(\d{3})(\d{2})(\d{2})(\d{2})"); ("nationalPrefixFormattingRule", "$NP$FG")]
  ++ tx "leadingDigits" "[1-37-9]"
  ++ tx "format" "$1 $2 $3 $4"
  ++ en "numberFormat"
  ++ en "availableFormats"
  ++ st "generalDesc" []
  ++ tx "nationalNumberPattern" "(?:[1289]\d|31|77)\d{7}|1\d{6}"
  ++ en "generalDesc"
  ++ st "fixedLine" []
  ++ em "possibleLengths" [("national", "7")]
  ++ tx "exampleNumber" "1234567"
  ++ tx "nationalNumberPattern" "1[2-9]\d{5}"
  ++ en "fixedLine"
  ++ st "mobile" []
  ++ em "possibleLengths" [("national", "9")]
  ++ tx "exampleNumber" "991234567"
  ++ tx "nationalNumberPattern" "111\d{6}|(?:2[12]|31|77|[89][89])\d{7}"
  ++ en "mobile"
  ++ en "territory".

Definition ev_153 : list event :=
  st "territory" [("id", "MX"); ("countryCode", "52"); ("preferredInternationalPrefix", "00"); ("internationalPrefix", "0[09]"); ("mobileNumberPortableRegion", "true")]
  ++ st "availableFormats" []
  ++ st "numberFormat" [("pattern", "(\d{5})")]
  ++ tx "leadingDigits" "53"
  ++ tx "format" "$1"
  ++ tx "intlFormat" "NA"
  ++ en "numberFormat"
  ++ st "numberFormat" [("pattern", "(\d{2})(\d{4})(\d{4})")]
  ++ tx "leadingDigits" "33|5[56]|81"
  ++ tx "format" "$1 $2 $3"
  ++ en "numberFormat"
  ++ st "numberFormat" [("pattern", "(\d{3})(\d{3})(\d{4})")]
  ++ tx "leadingDigits" "[2-9]"
  ++ tx "format" "$1 $2 $3"
  ++ en "numberFormat"
  ++ en "availableFormats"
  ++ st "generalDesc" []
  ++ tx "nationalNumberPattern" "[2-9]\d{9}"
  ++ en "generalDesc"
  ++ st "fixedLine" []
  ++ em "possibleLengths" [("national", "10"); ("localOnly", "7,8")]
  ++ tx "exampleNumber" "2001234567"
  ++ tx "nationalNumberPattern" "(?:2(?:0[01]|2\d|3[1-35-8]|4[13-9]|7[1-689]|8[1-578]|9[467])|3(?:1[1-79]|[2458][1-9]|3\d|7[1-8]|9[1-5])|4(?:1[1-57-9]|[267][1-9]|3[1-8]|[45]\d|8[1-35-9]|9[2-689])|5(?:[56]\d|88|9[1-79])|6(?:1[2-68]|[2-4][1-9]|5[1-36-9]|6[0-57-9]|7[1-7]|8[67]|9[4-8])|7(?:[1346][1-9]|[27]\d|5[13-9]|8[1-69]|9[17])|8(?:1\d|2[13-689]|3[1-6]|4[124-6]|6[1246-9]|7[0-378]|9[12479])|9(?:1[346-9]|2[1-4]|3[2-46-8]|5[1348]|[69]\d|7[12]|8[1-8]))\d{7}"
  ++ en "fixedLine"
  ++ st "mobile" []
  ++ em "possibleLengths" [("national", "10"); ("localOnly", "7,8")]
  ++ tx "exampleNumber" "2221234567"
  ++ tx "nationalNumberPattern" "(?:2(?:2\d|3[1-35-8]|4[13-9]|7[1-689]|8[1-578]|9[467])|3(?:1[1-79]|[2458][1-9]|3\d|7[1-8]|9[1-5])|4(?:1[1-57-9]|[267][1-9]|3[1-8]|[45]\d|8[1-35-9]|9[2-689])|5(?:[56]\d|88|9[1-79])|6(?:1[2-68]|[2-4][1-9]|5[1-36-9]|6[0-57-9]|7[1-7]|8[67]|9[4-8])|7(?:[1346][1-9]|[27]\d|5[13-9]|8[1-69]|9[17])|8(?:1\d|2[13-689]|3[1-6]|4[124-6]|6[1246-9]|7[0-378]|9[12479])|9(?:1[346-9]|2[1-4]|3[2-46-8]|5[1348]|[69]\d|7[12]|8[1-8]))\d{7}"
  ++ en "mobile"
  ++ st "tollFree" []
  ++ em "possibleLengths" [("national", "10")]
  ++ tx "exampleNumber" "8001234567"
  ++ tx "nationalNumberPattern" "8(?:00|88)\d{7}"
  ++ en "tollFree"
  ++ st "premiumRate" []
  ++ em "possibleLengths" [("national", "10")]
  ++ tx "exampleNumber" "9001234567"
  ++ tx "nationalNumberPattern" "900\d{7}"
  ++ en "premiumRate"
  ++ st "sharedCost" []
  ++ em "possibleLengths" [("national", "10")]
  ++ tx "exampleNumber" "3001234567"
  ++ tx "nationalNumberPattern" "300\d{7}"
  ++ en "sharedCost"
  ++ st "personalNumber" []
  ++ em "possibleLengths" [("national", "10")]
  ++ tx "exampleNumber" "5001234567"
  ++ tx "nationalNumberPattern" "500\d{7}"
  ++ en "personalNumber"
  ++ en "territory".

Definition ev_154 : list event :=
  st "territory" [("id", "MY"); ("countryCode", "60"); ("internationalPrefix", "00"); ("nationalPrefix", "0"); ("mobileNumberPortableRegion", "true")]
  ++ st "availableFormats" []
  ++ st "numberFormat" [("pattern", "(\d)(\d{3})(\d{4})"); ("nationalPrefixFormattingRule", "$NP$FG")]
  ++ tx "leadingDigits" "[4-79]"
  ++ tx "format" "$1-$2 $3"
  ++ en "numberFormat"
  ++ st "numberFormat" [("pattern", "(\d{2})(\d{3})(\d{3,4})"); ("nationalPrefixFormattingRule", "$NP$FG")]
  ++ tx "leadingDigits" "1(?:[02469]|[378][1-9]|53)|8"
  ++ tx "leadingDigits" "1(?:[02469]|[37][1-9]|53|8(?:[1-46-9]|5[7-9]))|8"
  ++ tx "format" "$1-$2 $3"
  ++ en "numberFormat"
  ++ st "numberFormat" [("pattern", "(\d)(\d{4})(\d{4})"); ("nationalPrefixFormattingRule", "$NP$FG")]
  ++ tx "leadingDigits" "3"
  ++ tx "format" "$1-$2 $3"
  ++ en "numberFormat"
  ++ st "numberFormat" [("pattern", "(\d)(\d{3})(\d{2})(\d{4})")]
  ++ tx "leadingDigits" "1(?:[367]|80)"
  ++ tx "format" "$1-$2-$3-$4"
  ++ en "numberFormat"
  ++ st "numberFormat" [("pattern", "(\d{3})(\d{3})(\d{4})"); ("nationalPrefixFormattingRule", "$NP$FG")]
  ++ tx "leadingDigits" "15"
  ++ tx "format" "$1-$2 $3"
  ++ en "numberFormat"
  ++ st "numberFormat" [("pattern", "(\d{2})(\d{4})(\d{4})"); ("nationalPrefixFormattingRule", "$NP$FG")]
  ++ tx "leadingDigits" "1"
  ++ tx "format" "$1-$2 $3"
  ++ en "numberFormat"
  ++ en "availableFormats"
  ++ st "generalDesc" []
  ++ tx "nationalNumberPattern" "1\d{8,9}|(?:3\d|[4-9])\d{7}"
  ++ en "generalDesc"
  ++ st "fixedLine" []
  ++ em "possibleLengths" [("national", "8,9"); ("localOnly", "6,7")]
  ++ tx "exampleNumber" "323856789"
  ++ tx "nationalNumberPattern" "427[01]\d{4}|(?:3(?:2[0-36-9]|3[0-368]|4[0-278]|5[0-24-8]|6[0-467]|7[1246-9]|8\d|9[0-57])\d|4(?:2[0-689]|[3-79]\d|8[1-35689])|5(?:2[0-589]|[3468]\d|5[0-489]|7[1-9]|9[23])|6(?:2[2-9]|3[1357-9]|[46]\d|5[0-6]|7[0-35-9]|85|9[015-8])|7(?:[2579]\d|3[03-68]|4[0-8]|6[5-9]|8[0-35-9])|8(?:[24][2-8]|3[2-5]|5[2-7]|6[2-589]|7[2-578]|[89][2-9])|9(?:0[57]|13|[25-7]\d|[3489][0-8]))\d{5}"
  ++ en "fixedLine"
  ++ st "mobile" []
  ++ em "possibleLengths" [("national", "9,10")]
  ++ tx "exampleNumber" "123456789"
  ++ tx "nationalNumberPattern" "1(?:(?:1888[689]|4400|8(?:47|8[27])[0-4])\d{4}|9\d{7,8})|1(?:0(?:[23568]\d|4[0-6]|7[016-9]|9[0-8])|1(?:[1-5]\d\d|6(?:0[5-9]|[1-9]\d)|7(?:[0-4]\d|5[0-79]|6[02-4]|8[02-5]))|(?:[26]\d|[37][1-9]|4[235-9])\d|5(?:31|9\d\d)|8(?:1[23]|[236]\d|4[06]|5(?:46|[7-9])|7[016-9]|8[01]|9[0-8]))\d{5}"
  ++ en "mobile"
  ++ st "tollFree" []
  ++ em "possibleLengths" [("national", "10")]
  ++ tx "exampleNumber" "1300123456"
  ++ tx "nationalNumberPattern" "1[378]00\d{6}"
  ++ en "tollFree"
  ++ st "premiumRate" []
  ++ em "possibleLengths" [("national", "10")]
  ++ tx "exampleNumber" "1600123456"
  ++ tx "nationalNumberPattern" "1600\d{6}"
  ++ en "premiumRate"
  ++ st "voip" []
  ++ em "possibleLengths" [("national", "10")]
  ++ tx "exampleNumber" "1546012345"
  ++ tx "nationalNumberPattern" "15(?:4(?:6[0-4]\d|8(?:0[125]|[17]\d|21|3[01]|4[01589]|5[014]|6[02]))|6(?:32[0-6]|78\d))\d{4}"
  ++ en "voip"
  ++ en "territory".

Definition ev_155 : list event :=
  st "territory" [("id", "MZ"); ("countryCode", "258"); ("internationalPrefix", "00")]
  ++ st "availableFormats" []
  ++ st "numberFormat" [("pattern", "(\d{2})(\d{3})(\d{3,4})")]
  ++ tx "leadingDigits" "2|8[2-79]"
  ++ tx "format" "$1 $2 $3"
  ++ en "numberFormat"
  ++ st "numberFormat" [("pattern", "(\d{3})(\d{3})(\d{3})")]
  ++ tx "leadingDigits" "8"
  ++ tx "format" "$1 $2 $3"
  ++ en "numberFormat"
  ++ en "availableFormats"
  ++ st "generalDesc" []
  ++ tx "nationalNumberPattern" "(?:2|8\d)\d{7}"
  ++ en "generalDesc"
  ++ st "fixedLine" []
  ++ em "possibleLengths" [("national", "8")]
  ++ tx "exampleNumber" "21123456"
  ++ tx "nationalNumberPattern" "2(?:[1346]\d|5[0-2]|[78][12]|93)\d{5}"
  ++ en "fixedLine"
  ++ st "mobile" []
  ++ em "possibleLengths" [("national", "9")]
  ++ tx "exampleNumber" "821234567"
  ++ tx "nationalNumberPattern" "8[2-79]\d{7}"
  ++ en "mobile"
  ++ st "tollFree" []
  ++ em "possibleLengths" [("national", "9")]
  ++ tx "exampleNumber" "800123456"
  ++ tx "nationalNumberPattern" "800\d{6}"
  ++ en "tollFree"
  ++ en "territory".

Definition ev_156 : list event :=
  st "territory" [("id", "NA"); ("countryCode", "264"); ("internationalPrefix", "00"); ("nationalPrefix", "0")]
  ++ st "availableFormats" []
  ++ st "numberFormat" [("pattern", "(\d{2})(\d{3})(\d{3})"); ("nationalPrefixFormattingRule", "$NP$FG")]
  ++ tx "leadingDigits" "88"
  ++ tx "format" "$1 $2 $3"
  ++ en "numberFormat"
  ++ st "numberFormat" [("pattern", "(\d{2})(\d{3})(\d{3,4})"); ("nationalPrefixFormattingRule", "$NP$FG")]
  ++ tx "leadingDigits" "6"
  ++ tx "format" "$1 $2 $3"
  ++ en "numberFormat"
  ++ st "numberFormat" [("pattern", "(\d{3})(\d{3})(\d{3})"); ("nationalPrefixFormattingRule", "$NP$FG")]
  ++ tx "leadingDigits" "87"
  ++ tx "format" "$1 $2 $3"
  ++ en "numberFormat"
  ++ st "numberFormat" [("pattern", "(\d{2})(\d{3})(\d{4})"); ("nationalPrefixFormattingRule", "$NP$FG")]
  ++ tx "leadingDigits" "8"
  ++ tx "format" "$1 $2 $3"
  ++ en "numberFormat"
  ++ en "availableFormats"
  ++ st "generalDesc" []
  ++ tx "nationalNumberPattern" "[68]\d{7,8}"
  ++ en "generalDesc"
  ++ st "fixedLine" []
  ++ em "possibleLengths" [("national", "8,9")]
  ++ tx "exampleNumber" "61221234"
  ++ tx "nationalNumberPattern" "64426\d{3}|6(?:1(?:2[2-7]|3[01378]|4[0-4])|254|32[0237]|4(?:27|41|5[25])|52[236-8]|626|7(?:2[2-4]|30))\d{4,5}|6(?:1(?:(?:0\d|2[0189]|3[24-69]|4[5-9])\d|17|69|7[014])|2(?:17|5[0-36-8]|69|70)|3(?:17|2[14-689]|34|6[289]|7[01]|81)|4(?:17|2[0-2]|4[06]|5[0137]|69|7[01])|5(?:17|2[0459]|69|7[01])|6(?:17|25|38|42|69|7[01])|7(?:17|2[569]|3[13]|6[89]|7[01]))\d{4}"
  ++ en "fixedLine"
  ++ st "mobile" []
  ++ em "possibleLengths" [("national", "9")]
  ++ tx "exampleNumber" "811234567"
  ++ tx "nationalNumberPattern" "(?:60|8[1245])\d{7}"
  ++ en "mobile"
  ++ st "tollFree" []
  ++ em "possibleLengths" [("national", "9")]
  ++ tx "exampleNumber" "800123456"
  ++ tx "nationalNumberPattern" "80\d{7}"
  ++ en "tollFree"
  ++ st "premiumRate" []
  ++ em "possibleLengths" [("national", "9")]
  ++ tx "exampleNumber" "870123456"
  ++ tx "nationalNumberPattern" "8701\d{5}"
  ++ en "premiumRate"
  ++ st "voip" []
  ++ em "possibleLengths" [("national", "8,9")]
  ++ tx "exampleNumber" "88612345"
  ++ tx "nationalNumberPattern" "8(?:3\d\d|86)\d{5}"
  ++ en "voip"
  ++ en "territory".

Definition ev_157 : list event :=
  st "territory" [("id", "NC"); ("countryCode", "687"); ("internationalPrefix", "00")]
  ++ st "availableFormats" []
  ++ st "numberFormat" [("pattern", "(\d{3})")]
  ++ tx "leadingDigits" "5[6-8]"
  ++ tx "format" "$1"
  ++ tx "intlFormat" "NA"
  ++ en "numberFormat"
  ++ st "numberFormat" [("pattern", "(\d{2})(\d{2})(\d{2})")]
  ++ tx "leadingDigits" "[02-57-9]"
  ++ tx "format" "$1.$2.$3"
  ++ en "numberFormat"
  ++ en "availableFormats"
  ++ st "generalDesc" []
  ++ tx "nationalNumberPattern" "(?:050|[2-57-9]\d\d)\d{3}"
  ++ en "generalDesc"
  ++ st "fixedLine" []
  ++ em "possibleLengths" [("national", "6")]
  ++ tx "exampleNumber" "201234"
  ++ tx "nationalNumberPattern" "(?:2[03-9]|3[0-5]|4[1-7]|88)\d{4}"
  ++ en "fixedLine"
  ++ st "mobile" []
  ++ em "possibleLengths" [("national", "6")]
  ++ tx "exampleNumber" "751234"
  ++ tx "nationalNumberPattern" "(?:[579]\d|8[0-79])\d{4}"
  ++ en "mobile"
  ++ st "tollFree" []
  ++ em "possibleLengths" [("national", "6")]
  ++ tx "exampleNumber" "050012"
  ++ tx "nationalNumberPattern" "050\d{3}"
  ++ en "tollFree"
  ++ st "premiumRate" []
  ++ em "possibleLengths" [("national", "6")]
  ++ tx "exampleNumber" "366711"
  ++ tx "nationalNumberPattern" "36\d{4}"
  ++ en "premiumRate"
  ++ en "territory".

Definition ev_158 : list event :=
  st "territory" [("id", "NE"); ("countryCode", "227"); ("internationalPrefix", "00")]
  ++ st "availableFormats" []
  ++ st "numberFormat" [("pattern", "(\d{2})(\d{3})(\d{3})")]
  ++ tx "leadingDigits" "08"
  ++ tx "format" "$1 $2 $3"
  ++ en "numberFormat"
  ++ st "numberFormat" [("pattern", "(\d{2})(\d{2})(\d{2})(\d{2})")]
  ++ tx "leadingDigits" "[089]|2[013]|7[0467]"
  ++ tx "format" "$1 $2 $3 $4"
  ++ en "numberFormat"
  ++ en "availableFormats"
  ++ st "generalDesc" []
  ++ tx "nationalNumberPattern" "[027-9]\d{7}"
  ++ en "generalDesc"
  ++ st "fixedLine" []
  ++ em "possibleLengths" [("national", "8")]
  ++ tx "exampleNumber" "20201234"
  ++ tx "nationalNumberPattern" "2(?:0(?:20|3[1-8]|4[13-5]|5[14]|6[14578]|7[1-578])|1(?:4[145]|5[14]|6[14-68]|7[169]|88))\d{4}"
  ++ en "fixedLine"
  ++ st "mobile" []
  ++ em "possibleLengths" [("national", "8")]
  ++ tx "exampleNumber" "93123456"
  ++ tx "nationalNumberPattern" "(?:23|7[0467]|[89]\d)\d{6}"
  ++ en "mobile"
  ++ st "tollFree" []
  ++ em "possibleLengths" [("national", "8")]
  ++ tx "exampleNumber" "08123456"
  ++ tx "nationalNumberPattern" "08\d{6}"
  ++ en "tollFree"
  ++ st "premiumRate" []
  ++ em "possibleLengths" [("national", "8")]
  ++ tx "exampleNumber" "09123456"
  ++ tx "nationalNumberPattern" "09\d{6}"
  ++ en "premiumRate"
  ++ en "territory".

Definition ev_159 : list event :=
  st "territory" [("id", "NF"); ("countryCode", "672"); ("internationalPrefix", "00"); ("nationalPrefixForParsing", "([0-258]\d{4})$"); ("nationalPrefixTransformRule", "3$1")]
  ++ st "availableFormats" []
  ++ st "numberFormat" [("pattern", "(\d{2})(\d{4})")]
  ++ tx "leadingDigits" "1[0-3]"
  ++ tx "format" "$1 $2"
  ++ en "numberFormat"
  ++ st "numberFormat" [("pattern", "(\d)(\d{5})")]
  ++ tx "leadingDigits" "[13]"
  ++ tx "format" "$1 $2"
  ++ en "numberFormat"
  ++ en "availableFormats"
  ++ st "generalDesc" []
  ++ tx "nationalNumberPattern" "[13]\d{5}"
  ++ en "generalDesc"
  ++ st "fixedLine" []
  ++ em "possibleLengths" [("national", "6"); ("localOnly", "5")]
  ++ tx "exampleNumber" "106609"
  ++ tx "nationalNumberPattern" "(?:1(?:06|17|28|39)|3[0-2]\d)\d{3}"
  ++ en "fixedLine"
  ++ st "mobile" []
  ++ em "possibleLengths" [("national", "6"); ("localOnly", "5")]
  ++ tx "exampleNumber" "381234"
  ++ tx "nationalNumberPattern" "(?:14|3[58])\d{4}"
  ++ en "mobile"
  ++ en "territory".

Definition ev_160 : list event :=
  st "territory" [("id", "NG"); ("countryCode", "234"); ("internationalPrefix", "009"); ("nationalPrefix", "0"); ("mobileNumberPortableRegion", "true")]
  ++ st "availableFormats" []
  ++ st "numberFormat" [("pattern", "(\d{3})(\d{3})(\d{3,4})"); ("nationalPrefixFormattingRule", "$NP$FG")]
  ++ tx "leadingDigits" "[7-9]"
  ++ tx "format" "$1 $2 $3"
  ++ en "numberFormat"
  ++ st "numberFormat" [("pattern", "(\d{3})(\d{3})(\d{4})"); ("nationalPrefixFormattingRule", "$NP$FG")]
  ++ tx "leadingDigits" "20[129]"
  ++ tx "format" "$1 $2 $3"
  ++ en "numberFormat"
  ++ st "numberFormat" [("pattern", "(\d{4})(\d{2})(\d{4})"); ("nationalPrefixFormattingRule", "$NP$FG")]
  ++ tx "leadingDigits" "2"
  ++ tx "format" "$1 $2 $3"
  ++ en "numberFormat"
  ++ st "numberFormat" [("pattern", "(\d{3})(\d{4})(\d{4,5})"); ("nationalPrefixFormattingRule", "$NP$FG")]
  ++ tx "leadingDigits" "[78]"
  ++ tx "format" "$1 $2 $3"
  ++ en "numberFormat"
  ++ st "numberFormat" [("pattern", "(\d{3})(\d{5})(\d{5,6})"); ("nationalPrefixFormattingRule", "$NP$FG")]
  ++ tx "leadingDigits" "[78]"
  ++ tx "format" "$1 $2 $3"
  ++ en "numberFormat"
  ++ en "availableFormats"
  ++ st "generalDesc" []
  ++ tx "nationalNumberPattern" "(?:20|9\d)\d{8}|[78]\d{9,13}"
  ++ en "generalDesc"
  ++ st "fixedLine" []
  ++ em "possibleLengths" [("national", "10"); ("localOnly", "6,7")]
  ++ tx "exampleNumber" "2033123456"
  ++ tx "nationalNumberPattern" "20(?:[1259]\d|3[013-9]|4[1-8]|6[024-689]|7[1-79]|8[2-9])\d{6}"
  ++ en "fixedLine"
  ++ st "mobile" []
  ++ em "possibleLengths" [("national", "10")]
  ++ tx "exampleNumber" "8021234567"
  ++ tx "nationalNumberPattern" "(?:702[0-24-9]|819[01])\d{6}|(?:7(?:0[13-9]|[12]\d)|8(?:0[1-9]|1[0-8])|9(?:0[1-9]|1[1-6]))\d{7}"
  ++ en "mobile"
  ++ st "tollFree" []
  ++ em "possibleLengths" [("national", "[10-14]")]
  ++ tx "exampleNumber" "80017591759"
  ++ tx "nationalNumberPattern" "800\d{7,11}"
  ++ en "tollFree"
  ++ st "uan" []
  ++ em "possibleLengths" [("national", "[10-14]")]
  ++ tx "exampleNumber" "7001234567"
  ++ tx "nationalNumberPattern" "700\d{7,11}"
  ++ en "uan"
  ++ en "territory".

Definition ev_161 : list event :=
  st "territory" [("id", "NI"); ("countryCode", "505"); ("internationalPrefix", "00")]
  ++ st "availableFormats" []
  ++ st "numberFormat" [("pattern", "(\d{4})(\d{4})")]
  ++ tx "leadingDigits" "[125-8]"
  ++ tx "format" "$1 $2"
  ++ en "numberFormat"
  ++ en "availableFormats"
  ++ st "generalDesc" []
  ++ tx "nationalNumberPattern" "(?:1800|[25-8]\d{3})\d{4}"
  ++ en "generalDesc"
  ++ st "fixedLine" []
  ++ em "possibleLengths" [("national", "8")]
  ++ tx "exampleNumber" "21234567"
  ++ tx "nationalNumberPattern" "2\d{7}"
  ++ en "fixedLine"
  ++ st "mobile" []
  ++ em "possibleLengths" [("national", "8")]
  ++ tx "exampleNumber" "81234567"
  ++ tx "nationalNumberPattern" "(?:5(?:5[0-7]|[78]\d)|6(?:20|3[035]|4[045]|5[05]|77|8[1-9]|9[059])|(?:7[5-8]|8\d)\d)\d{5}"
  ++ en "mobile"
  ++ st "tollFree" []
  ++ em "possibleLengths" [("national", "8")]
  ++ tx "exampleNumber" "18001234"
  ++ tx "nationalNumberPattern" "1800\d{4}"
  ++ en "tollFree"
  ++ en "territory".

Definition ev_162 : list event :=
  st "territory" [("id", "NL"); ("countryCode", "31"); ("internationalPrefix", "00"); ("nationalPrefix", "0"); ("mobileNumberPortableRegion", "true")]
  ++ st "availableFormats" []
  ++ st "numberFormat" [("pattern", "(\d{4})")]
  ++ tx "leadingDigits" "1[238]|[34]"
  ++ tx "format" "$1"
  ++ tx "intlFormat" "NA"
  ++ en "numberFormat"
  ++ st "numberFormat" [("pattern", "(\d{2})(\d{3,4})")]
  ++ tx "leadingDigits" "14"
  ++ tx "format" "$1 $2"
  ++ tx "intlFormat" "NA"
  ++ en "numberFormat"
  ++ st "numberFormat" [("pattern", "(\d{6})")]
  ++ tx "leadingDigits" "1"
  ++ tx "format" "$1"
  ++ tx "intlFormat" "NA"
  ++ en "numberFormat"
  ++ st "numberFormat" [("pattern", "(\d{3})(\d{4,7})"); ("nationalPrefixFormattingRule", "$NP$FG")]
  ++ tx "leadingDigits" "[89]0"
  ++ tx "format" "$1 $2"
  ++ en "numberFormat"
  ++ st "numberFormat" [("pattern", "(\d{2})(\d{7})"); ("nationalPrefixFormattingRule", "$NP$FG")]
  ++ tx "leadingDigits" "66"
  ++ tx "format" "$1 $2"
  ++ en "numberFormat"
  ++ st "numberFormat" [("pattern", "(\d)(\d{8})"); ("nationalPrefixFormattingRule", "$NP$FG")]
  ++ tx "leadingDigits" "6"
  ++ tx "format" "$1 $2"
  ++ en "numberFormat"
  ++ st "numberFormat" [("pattern", "(\d{3})(\d{3})(\d{3})"); ("nationalPrefixFormattingRule", "$NP$FG")]
  ++ tx "leadingDigits" "1[16-8]|2[259]|3[124]|4[17-9]|5[124679]"
  ++ tx "format" "$1 $2 $3"
  ++ en "numberFormat"
  ++ st "numberFormat" [("pattern", "(\d{2})(\d{3})(\d{4})"); ("nationalPrefixFormattingRule", "$NP$FG")]
  ++ tx "leadingDigits" "[1-578]|91"
  ++ tx "format" "$1 $2 $3"
  ++ en "numberFormat"
  ++ st "numberFormat" [("pattern", "(\d{3})(\d{3})(\d{5})"); ("nationalPrefixFormattingRule", "$NP$FG")]
  ++ tx "leadingDigits" "9"
  ++ tx "format" "$1 $2 $3"
  ++ en "numberFormat"
  ++ en "availableFormats"
  ++ st "generalDesc" []
  ++ tx "nationalNumberPattern" "(?:[124-7]\d\d|3(?:[02-9]\d|1[0-8]))\d{6}|8\d{6,9}|9\d{6,10}|1\d{4,5}"
  ++ en "generalDesc"
  ++ st "noInternationalDialling" []
  ++ em "possibleLengths" [("national", "5,6")]
  ++ tx "nationalNumberPattern" "140(?:1[035]|2[0346]|3[03568]|4[0356]|5[0358]|8[458])|140(?:1[16-8]|2[259]|3[124]|4[17-9]|5[124679]|7)\d"
  ++ en "noInternationalDialling"
  ++ st "fixedLine" []
  ++ em "possibleLengths" [("national", "9")]
  ++ tx "exampleNumber" "101234567"
  ++ tx "nationalNumberPattern" "(?:1(?:[035]\d|1[13-578]|6[124-8]|7[24]|8[0-467])|2(?:[0346]\d|2[2-46-9]|5[125]|9[479])|3(?:[03568]\d|1[3-8]|2[01]|4[1-8])|4(?:[0356]\d|1[1-368]|7[58]|8[15-8]|9[23579])|5(?:[0358]\d|[19][1-9]|2[1-57-9]|4[13-8]|6[126]|7[0-3578])|7\d\d)\d{6}"
  ++ en "fixedLine"
  ++ st "mobile" []
  ++ em "possibleLengths" [("national", "9,11")]
  ++ tx "exampleNumber" "612345678"
  ++ tx "nationalNumberPattern" "(?:6[1-58]|970\d)\d{7}"
  ++ en "mobile"
  ++ st "pager" []
  ++ em "possibleLengths" [("national", "9")]
  ++ tx "exampleNumber" "662345678"
  ++ tx "nationalNumberPattern" "66\d{7}"
  ++ en "pager"
  ++ st "tollFree" []
  ++ em "possibleLengths" [("national", "[7-10]")]
  ++ tx "exampleNumber" "8001234"
  ++ tx "nationalNumberPattern" "800\d{4,7}"
  ++ en "tollFree"
  ++ st "premiumRate" []
  ++ em "possibleLengths" [("national", "[7-10]")]
  ++ tx "exampleNumber" "9061234"
  ++ tx "nationalNumberPattern" "90[069]\d{4,7}"
  ++ en "premiumRate"
  ++ st "voip" []
  ++ em "possibleLengths" [("national", "9")]
  ++ tx "exampleNumber" "851234567"
  ++ tx "nationalNumberPattern" "(?:85|91)\d{7}"
  ++ en "voip"
  ++ st "uan" []
  ++ em "possibleLengths" [("national", "5,6,9")]
  ++ tx "exampleNumber" "14020"
  ++ tx "nationalNumberPattern" "140(?:1[035]|2[0346]|3[03568]|4[0356]|5[0358]|8[458])|(?:140(?:1[16-8]|2[259]|3[124]|4[17-9]|5[124679]|7)|8[478]\d{6})\d"
  ++ en "uan"
  ++ en "territory".

Definition ev_163 : list event :=
  st "territory" [("id", "NO"); ("mainCountryForCode", "true"); ("countryCode", "47"); ("leadingDigits", "[02-689]|7[0-8]"); ("internationalPrefix", "00"); ("mobileNumberPortableRegion", "true")]
  ++ st "availableFormats" []
  ++ st "numberFormat" [("pattern", "(\d{3})(\d{2})(\d{3})")]
  ++ tx "leadingDigits" "8"
  ++ tx "format" "$1 $2 $3"
  ++ en "numberFormat"
  ++ st "numberFormat" [("pattern", "(\d{2})(\d{2})(\d{2})(\d{2})")]
  ++ tx "leadingDigits" "[2-79]"
  ++ tx "format" "$1 $2 $3 $4"
  ++ en "numberFormat"
  ++ en "availableFormats"
  ++ st "generalDesc" []
  ++ tx "nationalNumberPattern" "(?:0|[2-9]\d{3})\d{4}"
  ++ en "generalDesc"
  ++ st "fixedLine" []
  ++ em "possibleLengths" [("national", "8")]
  ++ tx "exampleNumber" "21234567"
  ++ tx "nationalNumberPattern" "(?:2[1-4]|3[1-3578]|5[1-35-7]|6[1-46-9]|7[0-8])\d{6}"
  ++ en "fixedLine"
  ++ st "mobile" []
  ++ em "possibleLengths" [("national", "8")]
  ++ tx "exampleNumber" "40612345"
  ++ tx "nationalNumberPattern" "[49]\d{7}"
  ++ en "mobile"
  ++ st "tollFree" []
  ++ em "possibleLengths" [("national", "8")]
  ++ tx "exampleNumber" "80012345"
  ++ tx "nationalNumberPattern" "80[01]\d{5}"
  ++ en "tollFree"
  ++ st "premiumRate" []
  ++ em "possibleLengths" [("national", "8")]
  ++ tx "exampleNumber" "82012345"
  ++ tx "nationalNumberPattern" "82[09]\d{5}"
  ++ en "premiumRate"
  ++ st "sharedCost" []
  ++ em "possibleLengths" [("national", "8")]
  ++ tx "exampleNumber" "81021234"
  ++ tx "nationalNumberPattern" "810(?:0[0-6]|[2-8]\d)\d{3}"
  ++ en "sharedCost"
  ++ st "personalNumber" []
  ++ em "possibleLengths" [("national", "8")]
  ++ tx "exampleNumber" "88012345"
  ++ tx "nationalNumberPattern" "880\d{5}"
  ++ en "personalNumber"
  ++ st "voip" []
  ++ em "possibleLengths" [("national", "8")]
  ++ tx "exampleNumber" "85012345"
  ++ tx "nationalNumberPattern" "85[0-5]\d{5}"
  ++ en "voip"
  ++ st "uan" []
  ++ em "possibleLengths" [("national", "5,8")]
  ++ tx "exampleNumber" "02000"
  ++ tx "nationalNumberPattern" "(?:0[235-9]|81(?:0(?:0[7-9]|1\d)|5\d\d))\d{3}"
  ++ en "uan"
  ++ st "voicemail" []
  ++ em "possibleLengths" [("national", "8")]
  ++ tx "exampleNumber" "81212345"
  ++ tx "nationalNumberPattern" "81[23]\d{5}"
  ++ en "voicemail"
  ++ en "territory".

Definition ev_164 : list event :=
  st "territory" [("id", "NP"); ("countryCode", "977"); ("internationalPrefix", "00"); ("nationalPrefix", "0")]
  ++ st "availableFormats" []
  ++ st "numberFormat" [("pattern", "(\d)(\d{7})"); ("nationalPrefixFormattingRule", "$NP$FG")]
  ++ tx "leadingDigits" "1[2-6]"
  ++ tx "format" "$1-$2"
  ++ en "numberFormat"
  ++ st "numberFormat" [("pattern", "(\d{2})(\d{6})"); ("nationalPrefixFormattingRule", "$NP$FG")]
  ++ tx "leadingDigits" "1[01]|[2-8]|9(?:[1-59]|[67][2-6])"
  ++ tx "format" "$1-$2"
  ++ en "numberFormat"
  ++ st "numberFormat" [("pattern", "(\d{3})(\d{7})")]
  ++ tx "leadingDigits" "9"
  ++ tx "format" "$1-$2"
  ++ en "numberFormat"
  ++ st "numberFormat" [("pattern", "(\d{4})(\d{2})(\d{5})")]
  ++ tx "leadingDigits" "1"
  ++ tx "format" "$1-$2-$3"
  ++ tx "intlFormat" "NA"
  ++ en "numberFormat"
  ++ en "availableFormats"
  ++ st "generalDesc" []
  ++ tx "nationalNumberPattern" "(?:1\d|9)\d{9}|[1-9]\d{7}"
  ++ en "generalDesc"
  ++ st "fixedLine" []
  ++ em "possibleLengths" [("national", "8"); ("localOnly", "6,7")]
  ++ tx "exampleNumber" "14567890"
  ++ tx "nationalNumberPattern" "(?:1[0-6]\d|99[02-6])\d{5}|(?:2[13-79]|3[135-8]|4[146-9]|5[135-7]|6[13-9]|7[15-9]|8[1-46-9]|9[1-7])[2-6]\d{5}"
  ++ en "fixedLine"
  ++ st "mobile" []
  ++ em "possibleLengths" [("national", "10")]
  ++ tx "exampleNumber" "9841234567"
  ++ tx "nationalNumberPattern" "9(?:00|6[0-3]|7[0-24-6]|8[0-24-68])\d{7}"
  ++ en "mobile"
  ++ st "tollFree" []
  ++ em "possibleLengths" [("national", "11")]
  ++ tx "exampleNumber" "16600101234"
  ++ tx "nationalNumberPattern" "1(?:66001|800\d\d)\d{5}"
  ++ en "tollFree"
  ++ en "territory".

Definition ev_165 : list event :=
  st "territory" [("id", "NR"); ("countryCode", "674"); ("internationalPrefix", "00")]
  ++ st "availableFormats" []
  ++ st "numberFormat" [("pattern", "(\d{3})(\d{4})")]
  ++ tx "leadingDigits" "[24-9]"
  ++ tx "format" "$1 $2"
  ++ en "numberFormat"
  ++ en "availableFormats"
  ++ st "generalDesc" []
  ++ tx "nationalNumberPattern" "(?:222|444|(?:55|8\d)\d|666|777|999)\d{4}"
  ++ en "generalDesc"
  ++ st "fixedLine" []
  ++ em "possibleLengths" [("national", "7")]
  ++ tx "exampleNumber" "4441234"
  ++ tx "nationalNumberPattern" "444\d{4}"
  ++ en "fixedLine"
  ++ st "mobile" []
  ++ em "possibleLengths" [("national", "7")]
  ++ tx "exampleNumber" "5551234"
  ++ tx "nationalNumberPattern" "(?:222|55[3-9]|666|777|8\d\d|999)\d{4}"
  ++ en "mobile"
  ++ en "territory".

Definition ev_166 : list event :=
  st "territory" [("id", "NU"); ("countryCode", "683"); ("internationalPrefix", "00")]
  ++ st "availableFormats" []
  ++ st "numberFormat" [("pattern", "(\d{3})(\d{4})")]
  ++ tx "leadingDigits" "8"
  ++ tx "format" "$1 $2"
  ++ en "numberFormat"
  ++ en "availableFormats"
  ++ st "generalDesc" []
  ++ tx "nationalNumberPattern" "(?:[4-7]|888\d)\d{3}"
  ++ en "generalDesc"
  ++ st "fixedLine" []
  ++ em "possibleLengths" [("national", "4")]
  ++ tx "exampleNumber" "7012"
  ++ tx "nationalNumberPattern" "[47]\d{3}"
  ++ en "fixedLine"
  ++ st "mobile" []
  ++ em "possibleLengths" [("national", "4,7")]
  ++ tx "exampleNumber" "8884012"
  ++ tx "nationalNumberPattern" "(?:[56]|888[1-9])\d{3}"
  ++ en "mobile"
  ++ en "territory".

Definition ev_167 : list event :=
  st "territory" [("id", "NZ"); ("countryCode", "64"); ("preferredInternationalPrefix", "00"); ("internationalPrefix", "0(?:0|161)"); ("nationalPrefix", "0"); ("mobileNumberPortableRegion", "true")]
  ++ st "availableFormats" []
  ++ st "numberFormat" [("pattern", "(\d{2})(\d{3,8})"); ("nationalPrefixFormattingRule", "$NP$FG")]
  ++ tx "leadingDigits" "8[1-79]"
  ++ tx "format" "$1 $2"
  ++ en "numberFormat"
  ++ st "numberFormat" [("pattern", "(\d{3})(\d{2})(\d{2,3})"); ("nationalPrefixFormattingRule", "$NP$FG")]
  ++ tx "leadingDigits" "50[036-8]|8|90"
  ++ tx "leadingDigits" "50(?:[0367]|88)|8|90"
  ++ tx "format" "$1 $2 $3"
  ++ en "numberFormat"
  ++ st "numberFormat" [("pattern", "(\d)(\d{3})(\d{4})"); ("nationalPrefixFormattingRule", "$NP$FG")]
  ++ tx "leadingDigits" "24|[346]|7[2-57-9]|9[2-9]"
  ++ tx "format" "$1 $2 $3"
  ++ en "numberFormat"
  ++ st "numberFormat" [("pattern", "(\d{3})(\d{3})(\d{3,4})"); ("nationalPrefixFormattingRule", "$NP$FG")]
  ++ tx "leadingDigits" "2(?:10|74)|[589]"
  ++ tx "format" "$1 $2 $3"
  ++ en "numberFormat"
  ++ st "numberFormat" [("pattern", "(\d{2})(\d{3,4})(\d{4})"); ("nationalPrefixFormattingRule", "$NP$FG")]
  ++ tx "leadingDigits" "1|2[028]"
  ++ tx "format" "$1 $2 $3"
  ++ en "numberFormat"
  ++ st "numberFormat" [("pattern", "(\d{2})(\d{3})(\d{3,5})"); ("nationalPrefixFormattingRule", "$NP$FG")]
  ++ tx "leadingDigits" "2(?:[169]|7[0-35-9])|7"
  ++ tx "format" "$1 $2 $3"
  ++ en "numberFormat"
  ++ en "availableFormats"
  ++ st "generalDesc" []
  ++ tx "nationalNumberPattern" "[1289]\d{9}|50\d{5}(?:\d{2,3})?|[27-9]\d{7,8}|(?:[34]\d|6[0-35-9])\d{6}|8\d{4,6}"
  ++ en "generalDesc"
  ++ st "fixedLine" []
  ++ em "possibleLengths" [("national", "8"); ("localOnly", "7")]
  ++ tx "exampleNumber" "32345678"
  ++ tx "nationalNumberPattern" "240\d{5}|(?:3[2-79]|[49][2-9]|6[235-9]|7[2-57-9])\d{6}"
  ++ en "fixedLine"
  ++ st "mobile" []
  ++ em "possibleLengths" [("national", "[8-10]")]
  ++ tx "exampleNumber" "211234567"
  ++ tx "nationalNumberPattern" "2(?:[0-27-9]\d|6)\d{6,7}|2(?:1\d|75)\d{5}"
  ++ en "mobile"
  ++ st "tollFree" []
  ++ em "possibleLengths" [("national", "[8-10]")]
  ++ tx "exampleNumber" "800123456"
  ++ tx "nationalNumberPattern" "508\d{6,7}|80\d{6,8}"
  ++ en "tollFree"
  ++ st "premiumRate" []
  ++ em "possibleLengths" [("national", "[7-10]")]
  ++ tx "exampleNumber" "900123456"
  ++ tx "nationalNumberPattern" "(?:1[13-57-9]\d{5}|50(?:0[08]|30|66|77|88))\d{3}|90\d{6,8}"
  ++ en "premiumRate"
  ++ st "personalNumber" []
  ++ em "possibleLengths" [("national", "9")]
  ++ tx "exampleNumber" "701234567"
  ++ tx "nationalNumberPattern" "70\d{7}"
  ++ en "personalNumber"
  ++ st "uan" []
  ++ em "possibleLengths" [("national", "[5-10]")]
  ++ tx "exampleNumber" "83012378"
  ++ tx "nationalNumberPattern" "8(?:1[16-9]|22|3\d|4[045]|5[459]|6[235-9]|7[0-3579]|90)\d{2,7}"
  ++ en "uan"
  ++ en "territory".

Definition ev_168 : list event :=
  st "territory" [("id", "OM"); ("countryCode", "968"); ("internationalPrefix", "00"); ("mobileNumberPortableRegion", "true")]
  ++ st "availableFormats" []
  ++ st "numberFormat" [("pattern", "(\d{3})(\d{4,6})")]
  ++ tx "leadingDigits" "[58]"
  ++ tx "format" "$1 $2"
  ++ en "numberFormat"
  ++ st "numberFormat" [("pattern", "(\d{2})(\d{6})")]
  ++ tx "leadingDigits" "2"
  ++ tx "format" "$1 $2"
  ++ en "numberFormat"
  ++ st "numberFormat" [("pattern", "(\d{4})(\d{4})")]
  ++ tx "leadingDigits" "[179]"
  ++ tx "format" "$1 $2"
  ++ en "numberFormat"
  ++ en "availableFormats"
  ++ st "generalDesc" []
  ++ tx "nationalNumberPattern" "(?:1505|[279]\d{3}|500)\d{4}|800\d{5,6}"
  ++ en "generalDesc"
  ++ st "fixedLine" []
  ++ em "possibleLengths" [("national", "8")]
  ++ tx "exampleNumber" "23123456"
  ++ tx "nationalNumberPattern" "2[1-6]\d{6}"
  ++ en "fixedLine"
  ++ st "mobile" []
  ++ em "possibleLengths" [("national", "8")]
  ++ tx "exampleNumber" "92123456"
  ++ tx "nationalNumberPattern" "(?:1505|90[1-9]\d)\d{4}|(?:7[124-9]|9[1-9])\d{6}"
  ++ en "mobile"
  ++ st "tollFree" []
  ++ em "possibleLengths" [("national", "[7-9]")]
  ++ tx "exampleNumber" "80071234"
  ++ tx "nationalNumberPattern" "8007\d{4,5}|(?:500|800[05])\d{4}"
  ++ en "tollFree"
  ++ st "premiumRate" []
  ++ em "possibleLengths" [("national", "8")]
  ++ tx "exampleNumber" "90012345"
  ++ tx "nationalNumberPattern" "900\d{5}"
  ++ en "premiumRate"
  ++ en "territory".

Definition ev_169 : list event :=
  st "territory" [("id", "PA"); ("countryCode", "507"); ("internationalPrefix", "00"); ("mobileNumberPortableRegion", "true")]
  ++ st "availableFormats" []
  ++ st "numberFormat" [("pattern", "(\d{3})(\d{4})")]
  ++ tx "leadingDigits" "[1-57-9]"
  ++ tx "format" "$1-$2"
  ++ en "numberFormat"
  ++ st "numberFormat" [("pattern", "(\d{4})(\d{4})")]
  ++ tx "leadingDigits" "[68]"
  ++ tx "format" "$1-$2"
  ++ en "numberFormat"
  ++ st "numberFormat" [("pattern", "(\d{3})(\d{3})(\d{4})")]
  ++ tx "leadingDigits" "8"
  ++ tx "format" "$1 $2 $3"
  ++ en "numberFormat"
  ++ en "availableFormats"
  ++ st "generalDesc" []
  ++ tx "nationalNumberPattern" "(?:00800|8\d{3})\d{6}|[68]\d{7}|[1-57-9]\d{6}"
  ++ en "generalDesc"
  ++ st "fixedLine" []
  ++ em "possibleLengths" [("national", "7")]
  ++ tx "exampleNumber" "2001234"
  ++ tx "nationalNumberPattern" "(?:1(?:0\d|1[0479]|2[37]|3[0137]|4[147]|5[05]|6[058]|7[0167]|8[2358]|9[1389])|2(?:[0235-79]\d|1[0-7]|4[013-9]|8[02-9])|3(?:[0147-9]\d|[25][0-5]|33|6[068])|4(?:00|3[0-579]|4\d|7[0-57-9])|5(?:[01]\d|2[0-7]|[56]0|79)|7(?:0[09]|2[0-26-8]|3[03]|4[04]|5[05-9]|6[0156]|7[0-24-9]|8[4-9]|90)|8(?:09|2[89]|3\d|4[0-24-689]|5[014]|8[02])|9(?:0[5-9]|1[0135-8]|2[036-9]|3[35-79]|40|5[0457-9]|6[05-9]|7[04-9]|8[35-8]|9\d))\d{4}"
  ++ en "fixedLine"
  ++ st "mobile" []
  ++ em "possibleLengths" [("national", "7,8")]
  ++ tx "exampleNumber" "61234567"
  ++ tx "nationalNumberPattern" "(?:1[16]1|21[89]|6\d{3}|8(?:1[01]|7[23]))\d{4}"
  ++ en "mobile"
  ++ st "tollFree" []
  ++ em "possibleLengths" [("national", "7,8,10,11")]
  ++ tx "exampleNumber" "8001234"
  ++ tx "nationalNumberPattern" "800\d{4,5}|(?:00800|800\d)\d{6}"
  ++ en "tollFree"
  ++ st "premiumRate" []
  ++ em "possibleLengths" [("national", "7")]
  ++ tx "exampleNumber" "8601234"
  ++ tx "nationalNumberPattern" "(?:8(?:22|55|60|7[78]|86)|9(?:00|81))\d{4}"
  ++ en "premiumRate"
  ++ en "territory".

Definition ev_170 : list event :=
  st "territory" [("id", "PE"); ("countryCode", "51"); ("preferredInternationalPrefix", "00"); ("internationalPrefix", "00|19(?:1[124]|77|90)00"); ("nationalPrefix", "0"); ("preferredExtnPrefix", " Anexo "); ("mobileNumberPortableRegion", "true")]
  ++ st "availableFormats" []
  ++ st "numberFormat" [("pattern", "(\d{3})(\d{5})"); ("nationalPrefixFormattingRule", "($NP$FG)")]
  ++ tx "leadingDigits" "80"
  ++ tx "format" "$1 $2"
  ++ en "numberFormat"
  ++ st "numberFormat" [("pattern", "(\d)(\d{7})"); ("nationalPrefixFormattingRule", "($NP$FG)")]
  ++ tx "leadingDigits" "1"
  ++ tx "format" "$1 $2"
  ++ en "numberFormat"
  ++ st "numberFormat" [("pattern", "(\d{2})(\d{6})"); ("nationalPrefixFormattingRule", "($NP$FG)")]
  ++ tx "leadingDigits" "[4-8]"
  ++ tx "format" "$1 $2"
  ++ en "numberFormat"
  ++ st "numberFormat" [("pattern", "(\d{3})(\d{3})(\d{3})")]
  ++ tx "leadingDigits" "9"
  ++ tx "format" "$1 $2 $3"
  ++ en "numberFormat"
  ++ en "availableFormats"
  ++ st "generalDesc" []
  ++ tx "nationalNumberPattern" "(?:[14-8]|9\d)\d{7}"
  ++ en "generalDesc"
  ++ st "fixedLine" []
  ++ em "possibleLengths" [("national", "8"); ("localOnly", "6,7")]
  ++ tx "exampleNumber" "11234567"
  ++ tx "nationalNumberPattern" "(?:(?:(?:4[34]|5[14])[0-8]|687)\d|7(?:173|(?:3[0-8]|55)\d)|8(?:10[05689]|6(?:0[06-9]|1[6-9]|29)|7(?:0[0569]|[56]0)))\d{4}|(?:1[0-8]|4[12]|5[236]|6[1-7]|7[246]|8[2-4])\d{6}"
  ++ en "fixedLine"
  ++ st "mobile" []
  ++ em "possibleLengths" [("national", "9")]
  ++ tx "exampleNumber" "912345678"
  ++ tx "nationalNumberPattern" "9\d{8}"
  ++ en "mobile"
  ++ st "tollFree" []
  ++ em "possibleLengths" [("national", "8")]
  ++ tx "exampleNumber" "80012345"
  ++ tx "nationalNumberPattern" "800\d{5}"
  ++ en "tollFree"
  ++ st "premiumRate" []
  ++ em "possibleLengths" [("national", "8")]
  ++ tx "exampleNumber" "80512345"
  ++ tx "nationalNumberPattern" "805\d{5}"
  ++ en "premiumRate"
  ++ st "sharedCost" []
  ++ em "possibleLengths" [("national", "8")]
  ++ tx "exampleNumber" "80112345"
  ++ tx "nationalNumberPattern" "801\d{5}"
  ++ en "sharedCost"
  ++ st "personalNumber" []
  ++ em "possibleLengths" [("national", "8")]
  ++ tx "exampleNumber" "80212345"
  ++ tx "nationalNumberPattern" "80[24]\d{5}"
  ++ en "personalNumber"
  ++ en "territory".

Definition ev_171 : list event :=
  st "territory" [("id", "PF"); ("countryCode", "689"); ("internationalPrefix", "00")]
  ++ st "availableFormats" []
  ++ st "numberFormat" [("pattern", "(\d{2})(\d{2})(\d{2})")]
  ++ tx "leadingDigits" "44"
  ++ tx "format" "$1 $2 $3"
  ++ en "numberFormat"
  ++ st "numberFormat" [("pattern", "(\d{2})(\d{2})(\d{2})(\d{2})")]
  ++ tx "leadingDigits" "4|8[7-9]"
  ++ tx "format" "$1 $2 $3 $4"
  ++ en "numberFormat"
  ++ st "numberFormat" [("pattern", "(\d{3})(\d{2})(\d{2})(\d{2})")]
  ++ tx "leadingDigits" "8"
  ++ tx "format" "$1 $2 $3 $4"
  ++ en "numberFormat"
  ++ en "availableFormats"
  ++ st "generalDesc" []
  ++ tx "nationalNumberPattern" "4\d{5}(?:\d{2})?|8\d{7,8}"
  ++ en "generalDesc"
  ++ st "noInternationalDialling" []
  ++ em "possibleLengths" [("national", "6")]
  ++ tx "nationalNumberPattern" "44\d{4}"
  ++ en "noInternationalDialling"
  ++ st "fixedLine" []
  ++ em "possibleLengths" [("national", "8")]
  ++ tx "exampleNumber" "40412345"
  ++ tx "nationalNumberPattern" "4(?:0[4-689]|9[4-68])\d{5}"
  ++ en "fixedLine"
  ++ st "mobile" []
  ++ em "possibleLengths" [("national", "8")]
  ++ tx "exampleNumber" "87123456"
  ++ tx "nationalNumberPattern" "8[7-9]\d{6}"
  ++ en "mobile"
  ++ st "tollFree" []
  ++ em "possibleLengths" [("national", "9")]
  ++ tx "exampleNumber" "800012345"
  ++ tx "nationalNumberPattern" "80[0-5]\d{6}"
  ++ en "tollFree"
  ++ st "voip" []
  ++ em "possibleLengths" [("national", "8")]
  ++ tx "exampleNumber" "49901234"
  ++ tx "nationalNumberPattern" "499\d{5}"
  ++ en "voip"
  ++ st "uan" []
  ++ em "possibleLengths" [("national", "6")]
  ++ tx "exampleNumber" "440123"
  ++ tx "nationalNumberPattern" "44\d{4}"
  ++ en "uan"
  ++ en "territory".

Definition ev_172 : list event :=
  st "territory" [("id", "PG"); ("countryCode", "675"); ("preferredInternationalPrefix", "00"); ("internationalPrefix", "00|140[1-3]")]
  ++ st "availableFormats" []
  ++ st "numberFormat" [("pattern", "(\d{3})(\d{4})")]
  ++ tx "leadingDigits" "18|[2-69]|85"
  ++ tx "format" "$1 $2"
  ++ en "numberFormat"
  ++ st "numberFormat" [("pattern", "(\d{4})(\d{4})")]
  ++ tx "leadingDigits" "[78]"
  ++ tx "format" "$1 $2"
  ++ en "numberFormat"
  ++ en "availableFormats"
  ++ st "generalDesc" []
  ++ tx "nationalNumberPattern" "(?:180|[78]\d{3})\d{4}|(?:[2-589]\d|64)\d{5}"
  ++ en "generalDesc"
  ++ st "fixedLine" []
  ++ em "possibleLengths" [("national", "7")]
  ++ tx "exampleNumber" "3123456"
  ++ tx "nationalNumberPattern" "(?:(?:3[0-2]|4[257]|5[34]|9[78])\d|64[1-9]|85[02-46-9])\d{4}"
  ++ en "fixedLine"
  ++ st "mobile" []
  ++ em "possibleLengths" [("national", "8")]
  ++ tx "exampleNumber" "70123456"
  ++ tx "nationalNumberPattern" "(?:7\d|8[1-48])\d{6}"
  ++ en "mobile"
  ++ st "pager" []
  ++ em "possibleLengths" [("national", "7")]
  ++ tx "exampleNumber" "2700123"
  ++ tx "nationalNumberPattern" "27[01]\d{4}"
  ++ en "pager"
  ++ st "tollFree" []
  ++ em "possibleLengths" [("national", "7")]
  ++ tx "exampleNumber" "1801234"
  ++ tx "nationalNumberPattern" "180\d{4}"
  ++ en "tollFree"
  ++ st "voip" []
  ++ em "possibleLengths" [("national", "7")]
  ++ tx "exampleNumber" "2751234"
  ++ tx "nationalNumberPattern" "2(?:0[0-57]|7[568])\d{4}"
  ++ en "voip"
  ++ en "territory".

Definition ev_173 : list event :=
  st "territory" [("id", "PH"); ("countryCode", "63"); ("internationalPrefix", "00"); ("nationalPrefix", "0")]
  ++ st "availableFormats" []
  ++ st "numberFormat" [("pattern", "(\d)(\d{5})"); ("nationalPrefixFormattingRule", "($NP$FG)")]
  ++ tx "leadingDigits" "2"
  ++ tx "format" "$1 $2"
  ++ en "numberFormat"
  ++ st "numberFormat" [("pattern", "(\d{4})(\d{4,6})"); ("nationalPrefixFormattingRule", "($NP$FG)")]
  ++ tx "leadingDigits" "3(?:23|39|46)|4(?:2[3-6]|[35]9|4[26]|76)|544|88[245]|(?:52|64|86)2"
  ++ tx "leadingDigits" "3(?:230|397|461)|4(?:2(?:35|[46]4|51)|396|4(?:22|63)|59[347]|76[15])|5(?:221|446)|642[23]|8(?:622|8(?:[24]2|5[13]))"
  ++ tx "format" "$1 $2"
  ++ en "numberFormat"
  ++ st "numberFormat" [("pattern", "(\d{5})(\d{4})"); ("nationalPrefixFormattingRule", "($NP$FG)")]
  ++ tx "leadingDigits" "346|4(?:27|9[35])|883"
  ++ tx "leadingDigits" "3469|4(?:279|9(?:30|56))|8834"
  ++ tx "format" "$1 $2"
  ++ en "numberFormat"
  ++ st "numberFormat" [("pattern", "(\d)(\d{4})(\d{4})"); ("nationalPrefixFormattingRule", "($NP$FG)")]
  ++ tx "leadingDigits" "2"
  ++ tx "format" "$1 $2 $3"
  ++ en "numberFormat"
  ++ st "numberFormat" [("pattern", "(\d{2})(\d{3})(\d{4})"); ("nationalPrefixFormattingRule", "($NP$FG)")]
  ++ tx "leadingDigits" "[3-7]|8[2-8]"
  ++ tx "format" "$1 $2 $3"
  ++ en "numberFormat"
  ++ st "numberFormat" [("pattern", "(\d{3})(\d{3})(\d{4})"); ("nationalPrefixFormattingRule", "$NP$FG")]
  ++ tx "leadingDigits" "[89]"
  ++ tx "format" "$1 $2 $3"
  ++ en "numberFormat"
  ++ st "numberFormat" [("pattern", "(\d{4})(\d{3})(\d{4})")]
  ++ tx "leadingDigits" "1"
  ++ tx "format" "$1 $2 $3"
  ++ en "numberFormat"
  ++ st "numberFormat" [("pattern", "(\d{4})(\d{1,2})(\d{3})(\d{4})")]
  ++ tx "leadingDigits" "1"
  ++ tx "format" "$1 $2 $3 $4"
  ++ en "numberFormat"
  ++ en "availableFormats"
  ++ st "generalDesc" []
  ++ tx "nationalNumberPattern" "(?:[2-7]|9\d)\d{8}|2\d{5}|(?:1800|8)\d{7,9}"
  ++ en "generalDesc"
  ++ st "fixedLine" []
  ++ em "possibleLengths" [("national", "6,[8-10]"); ("localOnly", "4,5,7")]
  ++ tx "exampleNumber" "232345678"
  ++ tx "nationalNumberPattern" "(?:(?:2[3-8]|3[2-68]|4[2-9]|5[2-6]|6[2-58]|7[24578])\d{3}|88(?:22\d\d|42))\d{4}|(?:2|8[2-8]\d\d)\d{5}"
  ++ en "fixedLine"
  ++ st "mobile" []
  ++ em "possibleLengths" [("national", "10")]
  ++ tx "exampleNumber" "9051234567"
  ++ tx "nationalNumberPattern" "(?:8(?:1[37]|9[5-8])|9(?:0[5-9]|1[0-24-9]|[235-7]\d|4[2-9]|8[135-9]|9[1-9]))\d{7}"
  ++ en "mobile"
  ++ st "tollFree" []
  ++ em "possibleLengths" [("national", "[11-13]")]
  ++ tx "exampleNumber" "180012345678"
  ++ tx "nationalNumberPattern" "1800\d{7,9}"
  ++ en "tollFree"
  ++ en "territory".

Definition ev_174 : list event :=
  st "territory" [("id", "PK"); ("countryCode", "92"); ("internationalPrefix", "00"); ("nationalPrefix", "0"); ("mobileNumberPortableRegion", "true")]
  ++ st "availableFormats" []
  ++ st "numberFormat" [("pattern", "(\d{3})(\d{3})(\d{2,7})"); ("nationalPrefixFormattingRule", "$NP$FG")]
  ++ tx "leadingDigits" "[89]0"
  ++ tx "format" "$1 $2 $3"
  ++ en "numberFormat"
  ++ st "numberFormat" [("pattern", "(\d{4})(\d{5})")]
  ++ tx "leadingDigits" "1"
  ++ tx "format" "$1 $2"
  ++ en "numberFormat"
  ++ st "numberFormat" [("pattern", "(\d{3})(\d{6,7})"); ("nationalPrefixFormattingRule", "($NP$FG)")]
  ++ tx "leadingDigits" "2(?:3[2358]|4[2-4]|9[2-8])|45[3479]|54[2-467]|60[468]|72[236]|8(?:2[2-689]|3[23578]|4[3478]|5[2356])|9(?:2[2-8]|3[27-9]|4[2-6]|6[3569]|9[25-8])"
  ++ tx "leadingDigits" "9(?:2[3-8]|98)|(?:2(?:3[2358]|4[2-4]|9[2-8])|45[3479]|54[2-467]|60[468]|72[236]|8(?:2[2-689]|3[23578]|4[3478]|5[2356])|9(?:22|3[27-9]|4[2-6]|6[3569]|9[25-7]))[2-9]"
  ++ tx "format" "$1 $2"
  ++ en "numberFormat"
  ++ st "numberFormat" [("pattern", "(\d{2})(\d{7,8})"); ("nationalPrefixFormattingRule", "($NP$FG)")]
  ++ tx "leadingDigits" "(?:2[125]|4[0-246-9]|5[1-35-7]|6[1-8]|7[14]|8[16]|91)[2-9]"
  ++ tx "format" "$1 $2"
  ++ en "numberFormat"
  ++ st "numberFormat" [("pattern", "(\d{5})(\d{5})"); ("nationalPrefixFormattingRule", "($NP$FG)")]
  ++ tx "leadingDigits" "58"
  ++ tx "format" "$1 $2"
  ++ en "numberFormat"
  ++ st "numberFormat" [("pattern", "(\d{3})(\d{7})"); ("nationalPrefixFormattingRule", "$NP$FG")]
  ++ tx "leadingDigits" "3"
  ++ tx "format" "$1 $2"
  ++ en "numberFormat"
  ++ st "numberFormat" [("pattern", "(\d{2})(\d{3})(\d{3})(\d{3})"); ("nationalPrefixFormattingRule", "($NP$FG)")]
  ++ tx "leadingDigits" "2[125]|4[0-246-9]|5[1-35-7]|6[1-8]|7[14]|8[16]|91"
  ++ tx "format" "$1 $2 $3 $4"
  ++ en "numberFormat"
  ++ st "numberFormat" [("pattern", "(\d{3})(\d{3})(\d{3})(\d{3})"); ("nationalPrefixFormattingRule", "($NP$FG)")]
  ++ tx "leadingDigits" "[24-9]"
  ++ tx "format" "$1 $2 $3 $4"
  ++ en "numberFormat"
  ++ en "availableFormats"
  ++ st "generalDesc" []
  ++ tx "nationalNumberPattern" "122\d{6}|[24-8]\d{10,11}|9(?:[013-9]\d{8,10}|2(?:[01]\d\d|2(?:[06-8]\d|1[01]))\d{7})|(?:[2-8]\d{3}|92(?:[0-7]\d|8[1-9]))\d{6}|[24-9]\d{8}|[89]\d{7}"
  ++ en "generalDesc"
  ++ st "fixedLine" []
  ++ em "possibleLengths" [("national", "9,10"); ("localOnly", "[5-8]")]
  ++ tx "exampleNumber" "2123456789"
  ++ tx "nationalNumberPattern" "(?:(?:21|42)[2-9]|58[126])\d{7}|(?:2[25]|4[0146-9]|5[1-35-7]|6[1-8]|7[14]|8[16]|91)[2-9]\d{6,7}|(?:2(?:3[2358]|4[2-4]|9[2-8])|45[3479]|54[2-467]|60[468]|72[236]|8(?:2[2-689]|3[23578]|4[3478]|5[2356])|9(?:2[2-8]|3[27-9]|4[2-6]|6[3569]|9[25-8]))[2-9]\d{5,6}"
  ++ en "fixedLine"
  ++ st "mobile" []
  ++ em "possibleLengths" [("national", "10")]
  ++ tx "exampleNumber" "3012345678"
  ++ tx "nationalNumberPattern" "3(?:[0-247]\d|3[0-79]|55|64)\d{7}"
  ++ en "mobile"
  ++ st "tollFree" []
  ++ em "possibleLengths" [("national", "8,11")]
  ++ tx "exampleNumber" "80012345"
  ++ tx "nationalNumberPattern" "800\d{5}(?:\d{3})?"
  ++ en "tollFree"
  ++ st "premiumRate" []
  ++ em "possibleLengths" [("national", "8")]
  ++ tx "exampleNumber" "90012345"
  ++ tx "nationalNumberPattern" "900\d{5}"
  ++ en "premiumRate"
  ++ st "personalNumber" []
  ++ em "possibleLengths" [("national", "9")]
  ++ tx "exampleNumber" "122044444"
  ++ tx "nationalNumberPattern" "122\d{6}"
  ++ en "personalNumber"
  ++ st "uan" []
  ++ em "possibleLengths" [("national", "11,12")]
  ++ tx "exampleNumber" "21111825888"
  ++ tx "nationalNumberPattern" "(?:2(?:[125]|3[2358]|4[2-4]|9[2-8])|4(?:[0-246-9]|5[3479])|5(?:[1-35-7]|4[2-467])|6(?:0[468]|[1-8])|7(?:[14]|2[236])|8(?:[16]|2[2-689]|3[23578]|4[3478]|5[2356])|9(?:1|22|3[27-9]|4[2-6]|6[3569]|9[2-7]))111\d{6}"
  ++ en "uan"
  ++ en "territory".

Definition ev_175 : list event :=
  st "territory" [("id", "PL"); ("countryCode", "48"); ("internationalPrefix", "00"); ("mobileNumberPortableRegion", "true")]
  ++ st "availableFormats" []
  ++ st "numberFormat" [("pattern", "(\d{5})")]
  ++ tx "leadingDigits" "19"
  ++ tx "format" "$1"
  ++ en "numberFormat"
  ++ st "numberFormat" [("pattern", "(\d{3})(\d{3})")]
  ++ tx "leadingDigits" "11|20|64"
  ++ tx "format" "$1 $2"
  ++ en "numberFormat"
  ++ st "numberFormat" [("pattern", "(\d{2})(\d{2})(\d{3})")]
  ++ tx "leadingDigits" "30|(?:1[2-8]|2[2-69]|3[2-4]|4[1-468]|5[24-689]|6[1-3578]|7[14-7]|8[1-79]|9[145])1"
  ++ tx "leadingDigits" "30|(?:1[2-8]|2[2-69]|3[2-4]|4[1-468]|5[24-689]|6[1-3578]|7[14-7]|8[1-79]|9[145])19"
  ++ tx "format" "$1 $2 $3"
  ++ en "numberFormat"
  ++ st "numberFormat" [("pattern", "(\d{3})(\d{2})(\d{2,3})")]
  ++ tx "leadingDigits" "64"
  ++ tx "format" "$1 $2 $3"
  ++ en "numberFormat"
  ++ st "numberFormat" [("pattern", "(\d{3})(\d{3})(\d{3})")]
  ++ tx "leadingDigits" "21|39|45|5[0137]|6[0469]|7[02389]|8(?:0[14]|8)"
  ++ tx "format" "$1 $2 $3"
  ++ en "numberFormat"
  ++ st "numberFormat" [("pattern", "(\d{2})(\d{3})(\d{2})(\d{2})")]
  ++ tx "leadingDigits" "1[2-8]|[2-7]|8[1-79]|9[145]"
  ++ tx "format" "$1 $2 $3 $4"
  ++ en "numberFormat"
  ++ st "numberFormat" [("pattern", "(\d{3})(\d{3})(\d{3,4})")]
  ++ tx "leadingDigits" "8"
  ++ tx "format" "$1 $2 $3"
  ++ en "numberFormat"
  ++ en "availableFormats"
  ++ st "generalDesc" []
  ++ tx "nationalNumberPattern" "(?:6|8\d\d)\d{7}|[1-9]\d{6}(?:\d{2})?|[26]\d{5}"
  ++ en "generalDesc"
  ++ st "fixedLine" []
  ++ em "possibleLengths" [("national", "7,9")]
  ++ tx "exampleNumber" "123456789"
  ++ tx "nationalNumberPattern" "(?:30|47\d\d)\d{5}|(?:1[2-8]|2[2-69]|3[2-4]|4[1-468]|5[24-689]|6[1-3578]|7[14-7]|8[1-79]|9[145])(?:[02-9]\d{6}|1(?:[0-8]\d{5}|9\d{3}(?:\d{2})?))"
  ++ en "fixedLine"
  ++ st "mobile" []
  ++ em "possibleLengths" [("national", "9")]
  ++ tx "exampleNumber" "512345678"
  ++ tx "nationalNumberPattern" "21(?:1[013-5]|2\d|3[1-9])\d{5}|(?:45|5[0137]|6[069]|7[2389]|88)\d{7}"
  ++ en "mobile"
  ++ st "pager" []
  ++ em "possibleLengths" [("national", "[6-9]")]
  ++ tx "exampleNumber" "641234567"
  ++ tx "nationalNumberPattern" "64\d{4,7}"
  ++ en "pager"
  ++ st "tollFree" []
  ++ em "possibleLengths" [("national", "9,10")]
  ++ tx "exampleNumber" "800123456"
  ++ tx "nationalNumberPattern" "800\d{6,7}"
  ++ en "tollFree"
  ++ st "premiumRate" []
  ++ em "possibleLengths" [("national", "9")]
  ++ tx "exampleNumber" "701234567"
  ++ tx "nationalNumberPattern" "70[01346-8]\d{6}"
  ++ en "premiumRate"
  ++ st "sharedCost" []
  ++ em "possibleLengths" [("national", "9")]
  ++ tx "exampleNumber" "801234567"
  ++ tx "nationalNumberPattern" "801\d{6}"
  ++ en "sharedCost"
  ++ st "voip" []
  ++ em "possibleLengths" [("national", "9")]
  ++ tx "exampleNumber" "391234567"
  ++ tx "nationalNumberPattern" "39\d{7}"
  ++ en "voip"
  ++ st "uan" []
  ++ em "possibleLengths" [("national", "9")]
  ++ tx "exampleNumber" "804123456"
  ++ tx "nationalNumberPattern" "804\d{6}"
  ++ en "uan"
  ++ en "territory".

Definition ev_176 : list event :=
  st "territory" [("id", "PM"); ("countryCode", "508"); ("internationalPrefix", "00"); ("nationalPrefix", "0")]
  ++ st "availableFormats" []
  ++ st "numberFormat" [("pattern", "(\d{2})(\d{2})(\d{2})"); ("nationalPrefixFormattingRule", "$NP$FG")]
  ++ tx "leadingDigits" "[2-9]"
  ++ tx "format" "$1 $2 $3"
  ++ en "numberFormat"
  ++ st "numberFormat" [("pattern", "(\d{3})(\d{3})(\d{3})")]
  ++ tx "leadingDigits" "7"
  ++ tx "format" "$1 $2 $3"
  ++ en "numberFormat"
  ++ st "numberFormat" [("pattern", "(\d{3})(\d{2})(\d{2})(\d{2})"); ("nationalPrefixFormattingRule", "$NP$FG")]
  ++ tx "leadingDigits" "8"
  ++ tx "format" "$1 $2 $3 $4"
  ++ en "numberFormat"
  ++ en "availableFormats"
  ++ st "generalDesc" []
  ++ tx "nationalNumberPattern" "[78]\d{8}|[2-9]\d{5}"
  ++ en "generalDesc"
  ++ st "fixedLine" []
  ++ em "possibleLengths" [("national", "6,9")]
  ++ tx "exampleNumber" "430123"
  ++ tx "nationalNumberPattern" "80[6-9]\d{6}|(?:[236-9]\d|4[1-35-9]|5[0-47-9])\d{4}"
  ++ en "fixedLine"
  ++ st "mobile" []
  ++ em "possibleLengths" [("national", "6,9")]
  ++ tx "exampleNumber" "551234"
  ++ tx "nationalNumberPattern" "708(?:4[0-5]|5[0-6])\d{4}|(?:[236-9]\d|4[02-489]|5[02-9])\d{4}"
  ++ en "mobile"
  ++ st "tollFree" []
  ++ em "possibleLengths" [("national", "9")]
  ++ tx "exampleNumber" "800012345"
  ++ tx "nationalNumberPattern" "80[0-5]\d{6}"
  ++ en "tollFree"
  ++ st "premiumRate" []
  ++ em "possibleLengths" [("national", "9")]
  ++ tx "exampleNumber" "810123456"
  ++ tx "nationalNumberPattern" "8[129]\d{7}"
  ++ en "premiumRate"
  ++ en "territory".

Definition ev_177 : list event :=
  st "territory" [("id", "PR"); ("countryCode", "1"); ("leadingDigits", "787|939"); ("internationalPrefix", "011"); ("nationalPrefix", "1"); ("mobileNumberPortableRegion", "true")]
  ++ st "generalDesc" []
  ++ tx "nationalNumberPattern" "(?:[589]\d\d|787)\d{7}"
  ++ en "generalDesc"
  ++ st "fixedLine" []
  ++ em "possibleLengths" [("national", "10"); ("localOnly", "7")]
  ++ tx "exampleNumber" "7872345678"
  ++ tx "nationalNumberPattern" "(?:787|939)[2-9]\d{6}"
  ++ en "fixedLine"
  ++ st "mobile" []
  ++ em "possibleLengths" [("national", "10"); ("localOnly", "7")]
  ++ tx "exampleNumber" "7872345678"
  ++ tx "nationalNumberPattern" "(?:787|939)[2-9]\d{6}"
  ++ en "mobile"
  ++ st "tollFree" []
  ++ em "possibleLengths" [("national", "10")]
  ++ tx "exampleNumber" "8002345678"
  ++ tx "nationalNumberPattern" "8(?:00|33|44|55|66|77|88)[2-9]\d{6}"
  ++ en "tollFree"
  ++ st "premiumRate" []
  ++ em "possibleLengths" [("national", "10")]
  ++ tx "exampleNumber" "9002345678"
  ++ tx "nationalNumberPattern" "900[2-9]\d{6}"
  ++ en "premiumRate"
  ++ st "personalNumber" []
  ++ em "possibleLengths" [("national", "10")]
  ++ tx "exampleNumber" "5002345678"
  ++ tx "nationalNumberPattern" "52(?:3(?:[2-46-9][02-9]\d|5(?:[02-46-9]\d|5[0-46-9]))|4(?:[2-478][02-9]\d|5(?:[034]\d|2[024-9]|5[0-46-9])|6(?:0[1-9]|[2-9]\d)|9(?:[05-9]\d|2[0-5]|49)))\d{4}|52[34][2-9]1[02-9]\d{4}|5(?:00|2[125-9]|3[23]|44|66|77|88)[2-9]\d{6}"
  ++ en "personalNumber"
  ++ en "territory".

Definition ev_178 : list event :=
  st "territory" [("id", "PS"); ("countryCode", "970"); ("internationalPrefix", "00"); ("nationalPrefix", "0")]
  ++ st "availableFormats" []
  ++ st "numberFormat" [("pattern", "(\d)(\d{3})(\d{4})"); ("nationalPrefixFormattingRule", "$NP$FG")]
  ++ tx "leadingDigits" "[2489]"
  ++ tx "format" "$1 $2 $3"
  ++ en "numberFormat"
  ++ st "numberFormat" [("pattern", "(\d{3})(\d{3})(\d{3})"); ("nationalPrefixFormattingRule", "$NP$FG")]
  ++ tx "leadingDigits" "5"
  ++ tx "format" "$1 $2 $3"
  ++ en "numberFormat"
  ++ st "numberFormat" [("pattern", "(\d{4})(\d{3})(\d{3})")]
  ++ tx "leadingDigits" "1"
  ++ tx "format" "$1 $2 $3"
  ++ en "numberFormat"
  ++ en "availableFormats"
  ++ st "generalDesc" []
  ++ tx "nationalNumberPattern" "[2489]2\d{6}|(?:1\d|5)\d{8}"
  ++ en "generalDesc"
  ++ st "fixedLine" []
  ++ em "possibleLengths" [("national", "8"); ("localOnly", "7")]
  ++ tx "exampleNumber" "22234567"
  ++ tx "nationalNumberPattern" "(?:22[2-47-9]|42[45]|82[014-68]|92[3569])\d{5}"
  ++ en "fixedLine"
  ++ st "mobile" []
  ++ em "possibleLengths" [("national", "9")]
  ++ tx "exampleNumber" "599123456"
  ++ tx "nationalNumberPattern" "5[69]\d{7}"
  ++ en "mobile"
  ++ st "tollFree" []
  ++ em "possibleLengths" [("national", "10")]
  ++ tx "exampleNumber" "1800123456"
  ++ tx "nationalNumberPattern" "1800\d{6}"
  ++ en "tollFree"
  ++ st "sharedCost" []
  ++ em "possibleLengths" [("national", "10")]
  ++ tx "exampleNumber" "1700123456"
  ++ tx "nationalNumberPattern" "1700\d{6}"
  ++ en "sharedCost"
  ++ en "territory".

Definition ev_179 : list event :=
  st "territory" [("id", "PT"); ("countryCode", "351"); ("internationalPrefix", "00"); ("mobileNumberPortableRegion", "true")]
  ++ st "availableFormats" []
  ++ st "numberFormat" [("pattern", "(\d{2})(\d{3})(\d{4})")]
  ++ tx "leadingDigits" "2[12]"
  ++ tx "format" "$1 $2 $3"
  ++ en "numberFormat"
  ++ st "numberFormat" [("pattern", "(\d{3})(\d{3})(\d{3})")]
  ++ tx "leadingDigits" "16|[236-9]"
  ++ tx "format" "$1 $2 $3"
  ++ en "numberFormat"
  ++ en "availableFormats"
  ++ st "generalDesc" []
  ++ tx "nationalNumberPattern" "1693\d{5}|(?:[26-9]\d|30)\d{7}"
  ++ en "generalDesc"
  ++ st "fixedLine" []
  ++ em "possibleLengths" [("national", "9")]
  ++ tx "exampleNumber" "212345678"
  ++ tx "nationalNumberPattern" "2(?:[12]\d|3[1-689]|4[1-59]|[57][1-9]|6[1-35689]|8[1-69]|9[1256])\d{6}"
  ++ en "fixedLine"
  ++ st "mobile" []
  ++ em "possibleLengths" [("national", "9")]
  ++ tx "exampleNumber" "912345678"
  ++ tx "nationalNumberPattern" "6(?:[06]92(?:30|9\d)|[35]92(?:[049]\d|3[034]))\d{3}|(?:(?:16|6[0356])93|9(?:[1-36]\d\d|480))\d{5}"
  ++ en "mobile"
  ++ st "pager" []
  ++ em "possibleLengths" [("national", "9")]
  ++ tx "exampleNumber" "622212345"
  ++ tx "nationalNumberPattern" "6(?:222\d|89(?:00|88|99))\d{4}"
  ++ en "pager"
  ++ st "tollFree" []
  ++ em "possibleLengths" [("national", "9")]
  ++ tx "exampleNumber" "800123456"
  ++ tx "nationalNumberPattern" "80[02]\d{6}"
  ++ en "tollFree"
  ++ st "premiumRate" []
  ++ em "possibleLengths" [("national", "9")]
  ++ tx "exampleNumber" "760123456"
  ++ tx "nationalNumberPattern" "(?:6(?:0[178]|4[68])\d|76(?:0[1-57]|1[2-47]|2[237]))\d{5}"
  ++ en "premiumRate"
  ++ st "sharedCost" []
  ++ em "possibleLengths" [("national", "9")]
  ++ tx "exampleNumber" "808123456"
  ++ tx "nationalNumberPattern" "80(?:8\d|9[1579])\d{5}"
  ++ en "sharedCost"
  ++ st "personalNumber" []
  ++ em "possibleLengths" [("national", "9")]
  ++ tx "exampleNumber" "884123456"
  ++ tx "nationalNumberPattern" "884[0-4689]\d{5}"
  ++ en "personalNumber"
  ++ st "voip" []
  ++ em "possibleLengths" [("national", "9")]
  ++ tx "exampleNumber" "301234567"
  ++ tx "nationalNumberPattern" "30\d{7}"
  ++ en "voip"
  ++ st "uan" []
  ++ em "possibleLengths" [("national", "9")]
  ++ tx "exampleNumber" "707123456"
  ++ tx "nationalNumberPattern" "70(?:38[01]|596|(?:7\d|8[17])\d)\d{4}"
  ++ en "uan"
  ++ st "voicemail" []
  ++ em "possibleLengths" [("national", "9")]
  ++ tx "exampleNumber" "600110000"
  ++ tx "nationalNumberPattern" "600\d{6}|6[06]92(?:0\d|3[349]|49)\d{3}"
  ++ en "voicemail"
  ++ en "territory".

Definition ev_180 : list event :=
  st "territory" [("id", "PW"); ("countryCode", "680"); ("internationalPrefix", "01[12]")]
  ++ st "availableFormats" []
  ++ st "numberFormat" [("pattern", "(\d{3})(\d{4})")]
  ++ tx "leadingDigits" "[2-9]"
  ++ tx "format" "$1 $2"
  ++ en "numberFormat"
  ++ en "availableFormats"
  ++ st "generalDesc" []
  ++ tx "nationalNumberPattern" "(?:[24-8]\d\d|345|900)\d{4}"
  ++ en "generalDesc"
  ++ st "fixedLine" []
  ++ em "possibleLengths" [("national", "7")]
  ++ tx "exampleNumber" "2771234"
  ++ tx "nationalNumberPattern" "(?:2(?:55|77)|345|488|5(?:35|44|87)|6(?:22|54|79)|7(?:33|47)|8(?:24|55|76)|900)\d{4}"
  ++ en "fixedLine"
  ++ st "mobile" []
  ++ em "possibleLengths" [("national", "7")]
  ++ tx "exampleNumber" "6201234"
  ++ tx "nationalNumberPattern" "(?:(?:46|83)[0-5]|(?:6[2-4689]|78)0)\d{4}|(?:45|77|88)\d{5}"
  ++ en "mobile"
  ++ en "territory".

Definition ev_181 : list event :=
  st "territory" [("id", "PY"); ("countryCode", "595"); ("internationalPrefix", "00"); ("nationalPrefix", "0"); ("mobileNumberPortableRegion", "true")]
  ++ st "availableFormats" []
  ++ st "numberFormat" [("pattern", "(\d{6,7})")]
  ++ tx "leadingDigits" "[125]|4[01]"
  ++ tx "format" "$1"
  ++ tx "intlFormat" "NA"
  ++ en "numberFormat"
  ++ st "numberFormat" [("pattern", "(\d{3})(\d{3,6})"); ("nationalPrefixFormattingRule", "$NP$FG")]
  ++ tx "leadingDigits" "[2-9]0"
  ++ tx "format" "$1 $2"
  ++ en "numberFormat"
  ++ st "numberFormat" [("pattern", "(\d{2})(\d{5})"); ("nationalPrefixFormattingRule", "($NP$FG)")]
  ++ tx "leadingDigits" "3[289]|4[246-8]|61|7[1-3]|8[1-36]"
  ++ tx "format" "$1 $2"
  ++ en "numberFormat"
  ++ st "numberFormat" [("pattern", "(\d{3})(\d{4,5})"); ("nationalPrefixFormattingRule", "($NP$FG)")]
  ++ tx "leadingDigits" "2[279]|3[13-5]|4[359]|5|6(?:[34]|7[1-46-8])|7[46-8]|85"
  ++ tx "format" "$1 $2"
  ++ en "numberFormat"
  ++ st "numberFormat" [("pattern", "(\d{2})(\d{3})(\d{3,4})"); ("nationalPrefixFormattingRule", "($NP$FG)")]
  ++ tx "leadingDigits" "2[14-68]|3[26-9]|4[1246-8]|6(?:1|75)|7[1-35]|8[1-36]"
  ++ tx "format" "$1 $2 $3"
  ++ en "numberFormat"
  ++ st "numberFormat" [("pattern", "(\d{2})(\d{3})(\d{4})")]
  ++ tx "leadingDigits" "87"
  ++ tx "format" "$1 $2 $3"
  ++ en "numberFormat"
  ++ st "numberFormat" [("pattern", "(\d{3})(\d{6})"); ("nationalPrefixFormattingRule", "$NP$FG")]
  ++ tx "leadingDigits" "9(?:[5-79]|8[1-7])"
  ++ tx "format" "$1 $2"
  ++ en "numberFormat"
  ++ st "numberFormat" [("pattern", "(\d{3})(\d{3})(\d{3})"); ("nationalPrefixFormattingRule", "$NP$FG")]
  ++ tx "leadingDigits" "[2-8]"
  ++ tx "format" "$1 $2 $3"
  ++ en "numberFormat"
  ++ st "numberFormat" [("pattern", "(\d{4})(\d{3})(\d{4})")]
  ++ tx "leadingDigits" "9"
  ++ tx "format" "$1 $2 $3"
  ++ en "numberFormat"
  ++ en "availableFormats"
  ++ st "generalDesc" []
  ++ tx "nationalNumberPattern" "[36-8]\d{5,8}|4\d{6,8}|59\d{6}|9\d{5,10}|(?:2\d|5[0-8])\d{6,7}"
  ++ en "generalDesc"
  ++ st "fixedLine" []
  ++ em "possibleLengths" [("national", "[7-9]"); ("localOnly", "5,6")]
  ++ tx "exampleNumber" "212345678"
  ++ tx "nationalNumberPattern" "(?:3[289]|4[246-8]|61|7[1-3]|8[1-36])\d{5,7}|(?:2(?:[14-68]\d|2[4-68]|7[15]|9[1-5])|3(?:18|3[167]|4[2357]|51|[67]\d)|4(?:1\d|3[12]|5[13]|9[1-47])|5(?:[1-4]\d|5[02-4])|6(?:3[1-3]|44|7[1-8])|7(?:4[0-4]|5\d|6[1-578]|75|8[0-8])|858)\d{5,6}"
  ++ en "fixedLine"
  ++ st "mobile" []
  ++ em "possibleLengths" [("national", "9")]
  ++ tx "exampleNumber" "961456789"
  ++ tx "nationalNumberPattern" "9(?:51|6[129]|7[1-6]|8[1-7]|9[1-5])\d{6}"
  ++ en "mobile"
  ++ st "tollFree" []
  ++ em "possibleLengths" [("national", "[9-11]")]
  ++ tx "exampleNumber" "98000123456"
  ++ tx "nationalNumberPattern" "9800\d{5,7}"
  ++ en "tollFree"
  ++ st "voip" []
  ++ em "possibleLengths" [("national", "9")]
  ++ tx "exampleNumber" "870012345"
  ++ tx "nationalNumberPattern" "8700[0-4]\d{4}"
  ++ en "voip"
  ++ st "uan" []
  ++ em "possibleLengths" [("national", "[6-9]")]
  ++ tx "exampleNumber" "201234567"
  ++ tx "nationalNumberPattern" "[245]0\d{6,7}|[36-9]0\d{4,7}"
  ++ en "uan"
  ++ en "territory".

Definition ev_182 : list event :=
  st "territory" [("id", "QA"); ("countryCode", "974"); ("internationalPrefix", "00"); ("mobileNumberPortableRegion", "true")]
  ++ st "availableFormats" []
  ++ st "numberFormat" [("pattern", "(\d{3})(\d{4})")]
  ++ tx "leadingDigits" "2[136]|8"
  ++ tx "format" "$1 $2"
  ++ en "numberFormat"
  ++ st "numberFormat" [("pattern", "(\d{4})(\d{4})")]
  ++ tx "leadingDigits" "[3-7]"
  ++ tx "format" "$1 $2"
  ++ en "numberFormat"
  ++ en "availableFormats"
  ++ st "generalDesc" []
  ++ tx "nationalNumberPattern" "800\d{4}|(?:2|800)\d{6}|(?:0080|[3-7])\d{7}"
  ++ en "generalDesc"
  ++ st "fixedLine" []
  ++ em "possibleLengths" [("national", "8")]
  ++ tx "exampleNumber" "44123456"
  ++ tx "nationalNumberPattern" "4(?:(?:[014]\d\d|999)\d|2022)\d{3}"
  ++ en "fixedLine"
  ++ st "mobile" []
  ++ em "possibleLengths" [("national", "8")]
  ++ tx "exampleNumber" "33123456"
  ++ tx "nationalNumberPattern" "[35-7]\d{7}"
  ++ en "mobile"
  ++ st "pager" []
  ++ em "possibleLengths" [("national", "7")]
  ++ tx "exampleNumber" "2123456"
  ++ tx "nationalNumberPattern" "2[136]\d{5}"
  ++ en "pager"
  ++ st "tollFree" []
  ++ em "possibleLengths" [("national", "7,9,11")]
  ++ tx "exampleNumber" "8001234"
  ++ tx "nationalNumberPattern" "800\d{4}|(?:0080[01]|800)\d{6}"
  ++ en "tollFree"
  ++ en "territory".

Definition ev_183 : list event :=
  st "territory" [("id", "RE"); ("mainCountryForCode", "true"); ("countryCode", "262"); ("internationalPrefix", "00"); ("nationalPrefix", "0")]
  ++ st "availableFormats" []
  ++ st "numberFormat" [("pattern", "(\d{3})(\d{2})(\d{2})(\d{2})"); ("nationalPrefixFormattingRule", "$NP$FG")]
  ++ tx "leadingDigits" "[26-9]"
  ++ tx "format" "$1 $2 $3 $4"
  ++ en "numberFormat"
  ++ en "availableFormats"
  ++ st "generalDesc" []
  ++ tx "nationalNumberPattern" "709\d{6}|(?:26|[689]\d)\d{7}"
  ++ en "generalDesc"
  ++ st "fixedLine" []
  ++ em "possibleLengths" [("national", "9")]
  ++ tx "exampleNumber" "262161234"
  ++ tx "nationalNumberPattern" "2631[0-6]\d{4}|26(?:2\d|30|88)\d{5}"
  ++ en "fixedLine"
  ++ st "mobile" []
  ++ em "possibleLengths" [("national", "9")]
  ++ tx "exampleNumber" "692123456"
  ++ tx "nationalNumberPattern" "(?:69(?:2\d\d|3(?:[06][0-6]|1[0-3]|2[0-2]|3[0-39]|4\d|5[0-5]|7[0-37]|8[0-8]|9[0-479]))|7092[0-3])\d{4}"
  ++ en "mobile"
  ++ st "tollFree" []
  ++ em "possibleLengths" [("national", "9")]
  ++ tx "exampleNumber" "801234567"
  ++ tx "nationalNumberPattern" "80\d{7}"
  ++ en "tollFree"
  ++ st "premiumRate" []
  ++ em "possibleLengths" [("national", "9")]
  ++ tx "exampleNumber" "891123456"
  ++ tx "nationalNumberPattern" "89[1-37-9]\d{6}"
  ++ en "premiumRate"
  ++ st "sharedCost" []
  ++ em "possibleLengths" [("national", "9")]
  ++ tx "exampleNumber" "810123456"
  ++ tx "nationalNumberPattern" "8(?:1[019]|2[0156]|84|90)\d{6}"
  ++ en "sharedCost"
  ++ st "voip" []
  ++ em "possibleLengths" [("national", "9")]
  ++ tx "exampleNumber" "939901234"
  ++ tx "nationalNumberPattern" "9(?:399[0-3]|479[0-6]|76(?:2[278]|3[0-37]))\d{4}"
  ++ en "voip"
  ++ en "territory".

Definition ev_184 : list event :=
  st "territory" [("id", "RO"); ("countryCode", "40"); ("internationalPrefix", "00"); ("nationalPrefix", "0"); ("preferredExtnPrefix", " int "); ("mobileNumberPortableRegion", "true")]
  ++ st "availableFormats" []
  ++ st "numberFormat" [("pattern", "(\d{3})(\d{3})"); ("nationalPrefixFormattingRule", "$NP$FG")]
  ++ tx "leadingDigits" "2[3-6]"
  ++ tx "leadingDigits" "2[3-6]\d9"
  ++ tx "format" "$1 $2"
  ++ en "numberFormat"
  ++ st "numberFormat" [("pattern", "(\d{2})(\d{4})"); ("nationalPrefixFormattingRule", "$NP$FG")]
  ++ tx "leadingDigits" "219|31"
  ++ tx "format" "$1 $2"
  ++ en "numberFormat"
  ++ st "numberFormat" [("pattern", "(\d{2})(\d{3})(\d{4})"); ("nationalPrefixFormattingRule", "$NP$FG")]
  ++ tx "leadingDigits" "[23]1"
  ++ tx "format" "$1 $2 $3"
  ++ en "numberFormat"
  ++ st "numberFormat" [("pattern", "(\d{3})(\d{3})(\d{3})"); ("nationalPrefixFormattingRule", "$NP$FG")]
  ++ tx "leadingDigits" "[236-9]"
  ++ tx "format" "$1 $2 $3"
  ++ en "numberFormat"
  ++ en "availableFormats"
  ++ st "generalDesc" []
  ++ tx "nationalNumberPattern" "(?:[236-8]\d|90)\d{7}|[23]\d{5}"
  ++ en "generalDesc"
  ++ st "fixedLine" []
  ++ em "possibleLengths" [("national", "6,9")]
  ++ tx "exampleNumber" "211234567"
  ++ tx "nationalNumberPattern" "[23][13-6]\d{7}|(?:2(?:19\d|[3-6]\d9)|31\d\d)\d\d"
  ++ en "fixedLine"
  ++ st "mobile" []
  ++ em "possibleLengths" [("national", "9")]
  ++ tx "exampleNumber" "712034567"
  ++ tx "nationalNumberPattern" "(?:630|702)0\d{5}|(?:6(?:00|2\d)|7(?:0[013-9]|1[0-3]|[2-7]\d|8[03-8]|9[0-39]))\d{6}"
  ++ en "mobile"
  ++ st "tollFree" []
  ++ em "possibleLengths" [("national", "9")]
  ++ tx "exampleNumber" "800123456"
  ++ tx "nationalNumberPattern" "800\d{6}"
  ++ en "tollFree"
  ++ st "premiumRate" []
  ++ em "possibleLengths" [("national", "9")]
  ++ tx "exampleNumber" "900123456"
  ++ tx "nationalNumberPattern" "90[0136]\d{6}"
  ++ en "premiumRate"
  ++ st "sharedCost" []
  ++ em "possibleLengths" [("national", "9")]
  ++ tx "exampleNumber" "801123456"
  ++ tx "nationalNumberPattern" "801\d{6}"
  ++ en "sharedCost"
  ++ st "uan" []
  ++ em "possibleLengths" [("national", "9")]
  ++ tx "exampleNumber" "372123456"
  ++ tx "nationalNumberPattern" "(?:37\d|80[578])\d{6}"
  ++ en "uan"
  ++ en "territory".

Definition ev_185 : list event :=
  st "territory" [("id", "RS"); ("countryCode", "381"); ("internationalPrefix", "00"); ("nationalPrefix", "0"); ("mobileNumberPortableRegion", "true")]
  ++ st "availableFormats" []
  ++ st "numberFormat" [("pattern", "(\d{3})(\d{3,9})"); ("nationalPrefixFormattingRule", "$NP$FG")]
  ++ tx "leadingDigits" "(?:2[389]|39)0|[7-9]"
  ++ tx "format" "$1 $2"
  ++ en "numberFormat"
  ++ st "numberFormat" [("pattern", "(\d{2})(\d{5,10})"); ("nationalPrefixFormattingRule", "$NP$FG")]
  ++ tx "leadingDigits" "[1-36]"
  ++ tx "format" "$1 $2"
  ++ en "numberFormat"
  ++ en "availableFormats"
  ++ st "generalDesc" []
  ++ tx "nationalNumberPattern" "38[02-9]\d{6,9}|6\d{7,9}|90\d{4,8}|38\d{5,6}|(?:7\d\d|800)\d{3,9}|(?:[12]\d|3[0-79])\d{5,10}"
  ++ en "generalDesc"
  ++ st "fixedLine" []
  ++ em "possibleLengths" [("national", "[7-12]"); ("localOnly", "[4-6]")]
  ++ tx "exampleNumber" "10234567"
  ++ tx "nationalNumberPattern" "(?:11[1-9]\d|(?:2[389]|39)(?:0[2-9]|[2-9]\d))\d{3,8}|(?:1[02-9]|2[0-24-7]|3[0-8])[2-9]\d{4,9}"
  ++ en "fixedLine"
  ++ st "mobile" []
  ++ em "possibleLengths" [("national", "[8-10]")]
  ++ tx "exampleNumber" "601234567"
  ++ tx "nationalNumberPattern" "6(?:[0-689]|7\d)\d{6,7}"
  ++ en "mobile"
  ++ st "tollFree" []
  ++ em "possibleLengths" [("national", "[6-12]")]
  ++ tx "exampleNumber" "80012345"
  ++ tx "nationalNumberPattern" "800\d{3,9}"
  ++ en "tollFree"
  ++ st "premiumRate" []
  ++ em "possibleLengths" [("national", "[6-10]")]
  ++ tx "exampleNumber" "90012345"
  ++ tx "nationalNumberPattern" "(?:78\d|90[0169])\d{3,7}"
  ++ en "premiumRate"
  ++ st "uan" []
  ++ em "possibleLengths" [("national", "[6-12]")]
  ++ tx "exampleNumber" "700123456"
  ++ tx "nationalNumberPattern" "7[06]\d{4,10}"
  ++ en "uan"
  ++ en "territory".

Definition ev_186 : list event :=
  st "territory" [("id", "RU"); ("mainCountryForCode", "true"); ("countryCode", "7"); ("leadingDigits", "[3489]"); ("preferredInternationalPrefix", "8~10"); ("internationalPrefix", "810"); ("nationalPrefix", "8"); ("mobileNumberPortableRegion", "true")]
  ++ st "availableFormats" []
  ++ st "numberFormat" [("pattern", "(\d{3})(\d{2})(\d{2})")]
  ++ tx "leadingDigits" "[0-79]"
  ++ tx "format" "$1-$2-$3"
  ++ tx "intlFormat" "NA"
  ++ en "numberFormat"
  ++ st "numberFormat" [("pattern", "(\d{4})(\d{2})(\d{2})(\d{2})"); ("nationalPrefixFormattingRule", "$NP ($FG)"); ("nationalPrefixOptionalWhenFormatting", "true")]
  ++ tx "leadingDigits" "7(?:1[0-8]|2[1-9])"
  ++ tx "leadingDigits" "7(?:1(?:[0-356]2|4[29]|7|8[27])|2(?:1[23]|[2-9]2))"
  ++ tx "leadingDigits" "7(?:1(?:[0-356]2|4[29]|7|8[27])|2(?:13[03-69]|62[013-9]))|72[1-57-9]2"
  ++ tx "format" "$1 $2 $3 $4"
  ++ en "numberFormat"
  ++ st "numberFormat" [("pattern", "(\d{5})(\d)(\d{2})(\d{2})"); ("nationalPrefixFormattingRule", "$NP ($FG)"); ("nationalPrefixOptionalWhenFormatting", "true")]
  ++ tx "leadingDigits" "7(?:1[0-68]|2[1-9])"
  ++ tx "leadingDigits" "7(?:1(?:[06][3-6]|[18]|2[35]|[3-5][3-5])|2(?:[13][3-5]|[24-689]|7[457]))"
  ++ tx "leadingDigits" "7(?:1(?:0(?:[356]|4[023])|[18]|2(?:3[013-9]|5)|3[45]|43[013-79]|5(?:3[1-8]|4[1-7]|5)|6(?:3[0-35-9]|[4-6]))|2(?:1(?:3[178]|[45])|[24-689]|3[35]|7[457]))|7(?:14|23)4[0-8]|71(?:33|45)[1-79]"
  ++ tx "format" "$1 $2 $3 $4"
  ++ en "numberFormat"
  ++ st "numberFormat" [("pattern", "(\d{3})(\d{3})(\d{4})"); ("nationalPrefixFormattingRule", "$NP ($FG)"); ("nationalPrefixOptionalWhenFormatting", "true")]
  ++ tx "leadingDigits" "7"
  ++ tx "format" "$1 $2 $3"
  ++ en "numberFormat"
  ++ st "numberFormat" [("pattern", "(\d{3})(\d{3})(\d{2})(\d{2})"); ("nationalPrefixFormattingRule", "$NP ($FG)"); ("nationalPrefixOptionalWhenFormatting", "true")]
  ++ tx "leadingDigits" "[349]|8(?:[02-7]|1[1-8])"
  ++ tx "format" "$1 $2-$3-$4"
  ++ en "numberFormat"
  ++ st "numberFormat" [("pattern", "(\d{4})(\d{4})(\d{3})(\d{3})"); ("nationalPrefixFormattingRule", "$NP ($FG)")]
  ++ tx "leadingDigits" "8"
  ++ tx "format" "$1 $2 $3 $4"
  ++ en "numberFormat"
  ++ en "availableFormats"
  ++ st "generalDesc" []
  ++ tx "nationalNumberPattern" "8\d{13}|[347-9]\d{9}"
  ++ en "generalDesc"
  ++ st "fixedLine" []
  ++ em "possibleLengths" [("national", "10"); ("localOnly", "7")]
  ++ tx "exampleNumber" "3011234567"
  ++ tx "nationalNumberPattern" "(?:3(?:0[12]|36|4[1-35-79]|5[1-3]|65|8[1-58]|9[0145])|4(?:01|1[1356]|2[13467]|7[1-5]|8[1-7]|9[1-689])|8(?:1[1-8]|2[01]|3[13-6]|4[0-8]|5[15-7]|6[0-35-79]|7[1-37-9]))\d{7}"
  ++ en "fixedLine"
  ++ st "mobile" []
  ++ em "possibleLengths" [("national", "10")]
  ++ tx "exampleNumber" "9123456789"
  ++ tx "nationalNumberPattern" "9\d{9}"
  ++ en "mobile"
  ++ st "tollFree" []
  ++ em "possibleLengths" [("national", "10,14")]
  ++ tx "exampleNumber" "8001234567"
  ++ tx "nationalNumberPattern" "8(?:0[04]|108\d{3})\d{7}"
  ++ en "tollFree"
  ++ st "premiumRate" []
  ++ em "possibleLengths" [("national", "10")]
  ++ tx "exampleNumber" "8091234567"
  ++ tx "nationalNumberPattern" "80[39]\d{7}"
  ++ en "premiumRate"
  ++ st "personalNumber" []
  ++ em "possibleLengths" [("national", "10")]
  ++ tx "exampleNumber" "8081234567"
  ++ tx "nationalNumberPattern" "808\d{7}"
  ++ en "personalNumber"
  ++ en "territory".

Definition ev_187 : list event :=
  st "territory" [("id", "RW"); ("countryCode", "250"); ("internationalPrefix", "00"); ("nationalPrefix", "0")]
  ++ st "availableFormats" []
  ++ st "numberFormat" [("pattern", "(\d{2})(\d{2})(\d{2})(\d{2})")]
  ++ tx "leadingDigits" "0"
  ++ tx "format" "$1 $2 $3 $4"
  ++ en "numberFormat"
  ++ st "numberFormat" [("pattern", "(\d{3})(\d{3})(\d{3})")]
  ++ tx "leadingDigits" "2"
  ++ tx "format" "$1 $2 $3"
  ++ en "numberFormat"
  ++ st "numberFormat" [("pattern", "(\d{3})(\d{3})(\d{3})"); ("nationalPrefixFormattingRule", "$NP$FG")]
  ++ tx "leadingDigits" "[7-9]"
  ++ tx "format" "$1 $2 $3"
  ++ en "numberFormat"
  ++ en "availableFormats"
  ++ st "generalDesc" []
  ++ tx "nationalNumberPattern" "(?:06|[27]\d\d|[89]00)\d{6}"
  ++ en "generalDesc"
  ++ st "fixedLine" []
  ++ em "possibleLengths" [("national", "8,9")]
  ++ tx "exampleNumber" "250123456"
  ++ tx "nationalNumberPattern" "(?:06|2[23568]\d)\d{6}"
  ++ en "fixedLine"
  ++ st "mobile" []
  ++ em "possibleLengths" [("national", "9")]
  ++ tx "exampleNumber" "720123456"
  ++ tx "nationalNumberPattern" "7[237-9]\d{7}"
  ++ en "mobile"
  ++ st "tollFree" []
  ++ em "possibleLengths" [("national", "9")]
  ++ tx "exampleNumber" "800123456"
  ++ tx "nationalNumberPattern" "800\d{6}"
  ++ en "tollFree"
  ++ st "premiumRate" []
  ++ em "possibleLengths" [("national", "9")]
  ++ tx "exampleNumber" "900123456"
  ++ tx "nationalNumberPattern" "900\d{6}"
  ++ en "premiumRate"
  ++ en "territory".

Definition ev_188 : list event :=
  st "territory" [("id", "SA"); ("countryCode", "966"); ("internationalPrefix", "00"); ("nationalPrefix", "0"); ("mobileNumberPortableRegion", "true")]
  ++ st "availableFormats" []
  ++ st "numberFormat" [("pattern", "(\d{4})(\d{5})")]
  ++ tx "leadingDigits" "9"
  ++ tx "format" "$1 $2"
  ++ en "numberFormat"
  ++ st "numberFormat" [("pattern", "(\d{2})(\d{3})(\d{4})"); ("nationalPrefixFormattingRule", "$NP$FG")]
  ++ tx "leadingDigits" "1"
  ++ tx "format" "$1 $2 $3"
  ++ en "numberFormat"
  ++ st "numberFormat" [("pattern", "(\d{2})(\d{3})(\d{4})"); ("nationalPrefixFormattingRule", "$NP$FG")]
  ++ tx "leadingDigits" "5"
  ++ tx "format" "$1 $2 $3"
  ++ en "numberFormat"
  ++ st "numberFormat" [("pattern", "(\d{3})(\d{3})(\d{4})")]
  ++ tx "leadingDigits" "8"
  ++ tx "format" "$1 $2 $3"
  ++ en "numberFormat"
  ++ en "availableFormats"
  ++ st "generalDesc" []
  ++ tx "nationalNumberPattern" "(?:[15]\d|800|92)\d{7}"
  ++ en "generalDesc"
  ++ st "fixedLine" []
  ++ em "possibleLengths" [("national", "9"); ("localOnly", "7")]
  ++ tx "exampleNumber" "112345678"
  ++ tx "nationalNumberPattern" "1(?:1\d|2[24-8]|3[35-8]|4[3-68]|6[2-5]|7[235-7])\d{6}"
  ++ en "fixedLine"
  ++ st "mobile" []
  ++ em "possibleLengths" [("national", "9")]
  ++ tx "exampleNumber" "512345678"
  ++ tx "nationalNumberPattern" "579[0-8]\d{5}|5(?:[013-689]\d|7[0-8])\d{6}"
  ++ en "mobile"
  ++ st "tollFree" []
  ++ em "possibleLengths" [("national", "10")]
  ++ tx "exampleNumber" "8001234567"
  ++ tx "nationalNumberPattern" "800\d{7}"
  ++ en "tollFree"
  ++ st "premiumRate" []
  ++ em "possibleLengths" [("national", "9")]
  ++ tx "exampleNumber" "925012345"
  ++ tx "nationalNumberPattern" "925\d{6}"
  ++ en "premiumRate"
  ++ st "sharedCost" []
  ++ em "possibleLengths" [("national", "9")]
  ++ tx "exampleNumber" "920012345"
  ++ tx "nationalNumberPattern" "920\d{6}"
  ++ en "sharedCost"
  ++ en "territory".

Definition ev_189 : list event :=
  st "territory" [("id", "SB"); ("countryCode", "677"); ("internationalPrefix", "0[01]")]
  ++ st "availableFormats" []
  ++ st "numberFormat" [("pattern", "(\d{2})(\d{5})")]
  ++ tx "leadingDigits" "6[89]|7|8[4-9]|9(?:[1-8]|9[0-8])"
  ++ tx "format" "$1 $2"
  ++ en "numberFormat"
  ++ en "availableFormats"
  ++ st "generalDesc" []
  ++ tx "nationalNumberPattern" "[6-9]\d{6}|[1-6]\d{4}"
  ++ en "generalDesc"
  ++ st "fixedLine" []
  ++ em "possibleLengths" [("national", "5")]
  ++ tx "exampleNumber" "40123"
  ++ tx "nationalNumberPattern" "(?:1[4-79]|[23]\d|4[0-2]|5[03]|6[0-37])\d{3}"
  ++ en "fixedLine"
  ++ st "mobile" []
  ++ em "possibleLengths" [("national", "5,7")]
  ++ tx "exampleNumber" "7421234"
  ++ tx "nationalNumberPattern" "48\d{3}|(?:(?:6[89]|7[1-9]|8[4-9])\d|9(?:1[2-9]|2[013-9]|3[0-2]|[46]\d|5[0-46-9]|7[0-689]|8[0-79]|9[0-8]))\d{4}"
  ++ en "mobile"
  ++ st "tollFree" []
  ++ em "possibleLengths" [("national", "5")]
  ++ tx "exampleNumber" "18123"
  ++ tx "nationalNumberPattern" "1[38]\d{3}"
  ++ en "tollFree"
  ++ st "voip" []
  ++ em "possibleLengths" [("national", "5")]
  ++ tx "exampleNumber" "51123"
  ++ tx "nationalNumberPattern" "5[12]\d{3}"
  ++ en "voip"
  ++ en "territory".

Definition ev_190 : list event :=
  st "territory" [("id", "SC"); ("countryCode", "248"); ("preferredInternationalPrefix", "00"); ("internationalPrefix", "010|0[0-2]")]
  ++ st "availableFormats" []
  ++ st "numberFormat" [("pattern", "(\d)(\d{3})(\d{3})")]
  ++ tx "leadingDigits" "[246]|9[57]"
  ++ tx "format" "$1 $2 $3"
  ++ en "numberFormat"
  ++ en "availableFormats"
  ++ st "generalDesc" []
  ++ tx "nationalNumberPattern" "(?:[2489]\d|64)\d{5}"
  ++ en "generalDesc"
  ++ st "fixedLine" []
  ++ em "possibleLengths" [("national", "7")]
  ++ tx "exampleNumber" "4217123"
  ++ tx "nationalNumberPattern" "4[2-46]\d{5}"
  ++ en "fixedLine"
  ++ st "mobile" []
  ++ em "possibleLengths" [("national", "7")]
  ++ tx "exampleNumber" "2510123"
  ++ tx "nationalNumberPattern" "2[125-8]\d{5}"
  ++ en "mobile"
  ++ st "tollFree" []
  ++ em "possibleLengths" [("national", "7")]
  ++ tx "exampleNumber" "8000000"
  ++ tx "nationalNumberPattern" "800[08]\d{3}"
  ++ en "tollFree"
  ++ st "premiumRate" []
  ++ em "possibleLengths" [("national", "7")]
  ++ tx "exampleNumber" "8512345"
  ++ tx "nationalNumberPattern" "85\d{5}"
  ++ en "premiumRate"
  ++ st "voip" []
  ++ em "possibleLengths" [("national", "7")]
  ++ tx "exampleNumber" "6412345"
  ++ tx "nationalNumberPattern" "971\d{4}|(?:64|95)\d{5}"
  ++ en "voip"
  ++ en "territory".

Definition ev_191 : list event :=
  st "territory" [("id", "SD"); ("countryCode", "249"); ("internationalPrefix", "00"); ("nationalPrefix", "0")]
  ++ st "availableFormats" []
  ++ st "numberFormat" [("pattern", "(\d{2})(\d{3})(\d{4})"); ("nationalPrefixFormattingRule", "$NP$FG")]
  ++ tx "leadingDigits" "[19]"
  ++ tx "format" "$1 $2 $3"
  ++ en "numberFormat"
  ++ en "availableFormats"
  ++ st "generalDesc" []
  ++ tx "nationalNumberPattern" "[19]\d{8}"
  ++ en "generalDesc"
  ++ st "fixedLine" []
  ++ em "possibleLengths" [("national", "9")]
  ++ tx "exampleNumber" "153123456"
  ++ tx "nationalNumberPattern" "1(?:5\d|8[35-7])\d{6}"
  ++ en "fixedLine"
  ++ st "mobile" []
  ++ em "possibleLengths" [("national", "9")]
  ++ tx "exampleNumber" "911231234"
  ++ tx "nationalNumberPattern" "(?:1[0-2]|9[0-3569])\d{7}"
  ++ en "mobile"
  ++ en "territory".

Definition events_c : list (list event) := [ev_128; ev_129; ev_130; ev_131; ev_132; ev_133; ev_134; ev_135; ev_136; ev_137; ev_138; ev_139; ev_140; ev_141; ev_142; ev_143; ev_144; ev_145; ev_146; ev_147; ev_148; ev_149; ev_150; ev_151; ev_152; ev_153; ev_154; ev_155; ev_156; ev_157; ev_158; ev_159; ev_160; ev_161; ev_162; ev_163; ev_164; ev_165; ev_166; ev_167; ev_168; ev_169; ev_170; ev_171; ev_172; ev_173; ev_174; ev_175; ev_176; ev_177; ev_178; ev_179; ev_180; ev_181; ev_182; ev_183; ev_184; ev_185; ev_186; ev_187; ev_188; ev_189; ev_190; ev_191].
