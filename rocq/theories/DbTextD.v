(** Generated by tools/gen_text.py: the text of /repo/assets/PhoneNumberMetadata.xml,
    part D of F, cut after every territory. *)
From Verif Require Import Base.
Local Open Scope bstr_scope.

Definition text_d : list (list bstr) :=
 [["

    <!-- Japan (JP) -->
    <!-- http://www.soumu.go.jp/main_sosiki/joho_tsusin/top/tel_number/number_shitei.html -->
    <!-- https://www.itu.int/oth/T020200006D/en -->
    <!-- http://www.numberingplans.com/?page=dialling&sub=areacodes&ac=JP -->
    <!-- nationalPrefixTransformRule is used here for purpose of capturing 0005999999 kind of
         short codes without dropping initial '0' as national prefix. As we are using this field,
         the library is unable to capture domestic carrier codes used, example input:
         003768-0XX-YYYY-ZZZZ. Due to historic reasons, the parts that we captured in
         nationalPrefixTransform rule can either be used to transform or to capture in fields like
         preferred_domestic_carrier_code; schema is designed this way. -->
    <territory id=""JP"" countryCode=""81"" internationalPrefix=""010"" nationalPrefix=""0""
               nationalPrefixForParsing=""(000[2569]\d{4,6})$|(?:(?:003768)0?)|0""
               nationalPrefixTransformRule=""$1"" mobileNumberPortableRegion=""true"">
      <availableFormats>
        <!-- National-only toll-free numbers (0037, 0066, 0077 and 0088). -->
        <numberFormat pattern=""(\d{4})(\d{4})"">
          <leadingDigits>007</leadingDigits>
          <leadingDigits>0077</leadingDigits>
          <leadingDigits>00777</leadingDigits>
          <leadingDigits>00777[01]</leadingDigits>
          <format>$1-$2</format>
          <intlFormat>NA</intlFormat>
        </numberFormat>
        <numberFormat pattern=""(\d{8,10})"">
          <leadingDigits>000</leadingDigits>
          <format>$1</format>
          <intlFormat>NA</intlFormat>
        </numberFormat>
        <!-- Toll-free, premium-rate and UAN numbers -->
        <numberFormat pattern=""(\d{3})(\d{3})(\d{3})"" nationalPrefixFormattingRule=""$NP$FG"">
          <leadingDigits>
            (?:
              12|
              57|
              99
            )0
          </leadingDigits>
          <format>$1-$2-$3</format>
        </numberFormat>
        <numberFormat pattern=""(\d{4})(\d)(\d{4})"" nationalPrefixFormattingRule=""$NP$FG"">
";
   "          <leadingDigits>
            1(?:
              26|
              3[79]|
              4[56]|
              5[4-68]|
              6[3-5]
            )|
            499|
            5(?:
              76|
              97
            )|
            746|
            8(?:
              3[89]|
              47|
              51
            )|
            9(?:
              80|
              9[16]
            )
          </leadingDigits>
          <leadingDigits>
            1(?:
              267|
              3(?:
                7[247]|
                9[278]
              )|
              466|
              5(?:
                47|
                58|
                64
              )|
              6(?:
                3[245]|
                48|
                5[4-68]
              )
            )|
            499[2468]|
            5(?:
              76|
              97
            )9|
            7468|
            8(?:
              3(?:
                8[7-9]|
                96
              )|
              477|
              51[2-9]
            )|
            9(?:
              802|
              9(?:
                1[23]|
                69
              )
            )|
            1(?:
              45|
              58
            )[67]
          </leadingDigits>
          <leadingDigits>
            1(?:
              267|
              3(?:
                7[247]|
                9[278]
              )|
              466|
              5(?:
                47|
                58|
                64
              )|
              6(?:
                3[245]|
                48|
                5[4-68]
              )
            )|
            499[2468]|
            5(?:
              769|
              979[2-69]
            )|
            7468|
            8(?:
              3(?:
                8[7-9]|
                96[2457-9]
              )|
              477|
              51[2-9]
            )|
            9(?:
              802|
              9(?:
";
   "                1[23]|
                69
              )
            )|
            1(?:
              45|
              58
            )[67]
          </leadingDigits>
          <format>$1-$2-$3</format>
        </numberFormat>
        <numberFormat pattern=""(\d{2})(\d{3})(\d{4})"" nationalPrefixFormattingRule=""$NP$FG"">
          <leadingDigits>60</leadingDigits>
          <format>$1-$2-$3</format>
        </numberFormat>
        <numberFormat pattern=""(\d)(\d{4})(\d{4})"" nationalPrefixFormattingRule=""$NP$FG"">
          <leadingDigits>
            3|
            4(?:
              2[09]|
              7[01]
            )|
            6[1-9]
          </leadingDigits>
          <leadingDigits>
            3|
            4(?:
              2(?:
                0|
                9[02-69]
              )|
              7(?:
                0[019]|
                1
              )
            )|
            6[1-9]
          </leadingDigits>
          <format>$1-$2-$3</format>
        </numberFormat>
        <numberFormat pattern=""(\d{2})(\d{3})(\d{4})"" nationalPrefixFormattingRule=""$NP$FG"">
          <leadingDigits>
            1(?:
              1|
              5[45]|
              77|
              88|
              9[69]
            )|
            2(?:
              2[1-37]|
              3[0-269]|
              4[59]|
              5|
              6[24]|
              7[1-358]|
              8[1369]|
              9[0-38]
            )|
            4(?:
              [28][1-9]|
              3[0-57]|
              [45]|
              6[248]|
              7[2-579]|
              9[29]
            )|
            5(?:
              2|
              3[0459]|
              4[0-369]|
              5[29]|
              8[02389]|
              9[0-389]
            )|
            7(?:
              2[02-46-9]|
              34|
              [58]|
              6[0249]|
              7[57]|
              9[2-6]
            )|
            8(?:
              2[124589]|
              3[26-9]|
";
   "              49|
              51|
              6|
              7[0-468]|
              8[68]|
              9[019]
            )|
            9(?:
              [23][1-9]|
              4[15]|
              5[138]|
              6[1-3]|
              7[156]|
              8[189]|
              9[1-489]
            )
          </leadingDigits>
          <leadingDigits>
            1(?:
              1|
              5(?:
                4[018]|
                5[017]
              )|
              77|
              88|
              9[69]
            )|
            2(?:
              2(?:
                [127]|
                3[014-9]
              )|
              3[0-269]|
              4[59]|
              5(?:
                [1-3]|
                5[0-69]|
                9[19]
              )|
              62|
              7(?:
                [1-35]|
                8[0189]
              )|
              8(?:
                [16]|
                3[0134]|
                9[0-5]
              )|
              9(?:
                [028]|
                17
              )
            )|
            4(?:
              2(?:
                [13-79]|
                8[014-6]
              )|
              3[0-57]|
              [45]|
              6[248]|
              7[2-47]|
              8[1-9]|
              9[29]
            )|
            5(?:
              2|
              3(?:
                [045]|
                9[0-8]
              )|
              4[0-369]|
              5[29]|
              8[02389]|
              9[0-3]
            )|
            7(?:
              2[02-46-9]|
              34|
              [58]|
              6[0249]|
              7[57]|
              9(?:
                [23]|
                4[0-59]|
                5[01569]|
                6[0167]
              )
            )|
            8(?:
              2(?:
                [1258]|
                4[0-39]|
                9[0-2469]
              )|
              3(?:
";
   "                [29]|
                60
              )|
              49|
              51|
              6(?:
                [0-24]|
                36|
                5[0-3589]|
                7[23]|
                9[01459]
              )|
              7[0-468]|
              8[68]
            )|
            9(?:
              [23][1-9]|
              4[15]|
              5[138]|
              6[1-3]|
              7[156]|
              8[189]|
              9(?:
                [1289]|
                3[34]|
                4[0178]
              )
            )|
            (?:
              264|
              837
            )[016-9]|
            2(?:
              57|
              93
            )[015-9]|
            (?:
              25[0468]|
              422|
              838
            )[01]|
            (?:
              47[59]|
              59[89]|
              8(?:
                6[68]|
                9
              )
            )[019]
          </leadingDigits>
          <leadingDigits>
            1(?:
              1|
              5(?:
                4[018]|
                5[017]
              )|
              77|
              88|
              9[69]
            )|
            2(?:
              2[127]|
              3[0-269]|
              4[59]|
              5(?:
                [1-3]|
                5[0-69]|
                9(?:
                  17|
                  99
                )
              )|
              6(?:
                2|
                4[016-9]
              )|
              7(?:
                [1-35]|
                8[0189]
              )|
              8(?:
                [16]|
                3[0134]|
                9[0-5]
              )|
              9(?:
                [028]|
                17
              )
            )|
            4(?:
              2(?:
                [13-79]|
                8[014-6]
              )|
              3[0-57]|
              [45]|
              6[248]|
";
   "              7[2-47]|
              9[29]
            )|
            5(?:
              2|
              3(?:
                [045]|
                9(?:
                  [0-58]|
                  6[4-9]|
                  7[0-35689]
                )
              )|
              4[0-369]|
              5[29]|
              8[02389]|
              9[0-3]
            )|
            7(?:
              2[02-46-9]|
              34|
              [58]|
              6[0249]|
              7[57]|
              9(?:
                [23]|
                4[0-59]|
                5[01569]|
                6[0167]
              )
            )|
            8(?:
              2(?:
                [1258]|
                4[0-39]|
                9[0169]
              )|
              3(?:
                [29]|
                60|
                7(?:
                  [017-9]|
                  6[6-8]
                )
              )|
              49|
              51|
              6(?:
                [0-24]|
                36[2-57-9]|
                5(?:
                  [0-389]|
                  5[23]
                )|
                6(?:
                  [01]|
                  9[178]
                )|
                7(?:
                  2[2-468]|
                  3[78]
                )|
                9[0145]
              )|
              7[0-468]|
              8[68]
            )|
            9(?:
              4[15]|
              5[138]|
              7[156]|
              8[189]|
              9(?:
                [1289]|
                3(?:
                  31|
                  4[357]
                )|
                4[0178]
              )
            )|
            (?:
              8294|
              96
            )[1-3]|
            2(?:
              57|
              93
            )[015-9]|
            (?:
              223|
              8699
            )[014-9]|
            (?:
              25[0468]|
              422|
              838
";
   "            )[01]|
            (?:
              48|
              8292|
              9[23]
            )[1-9]|
            (?:
              47[59]|
              59[89]|
              8(?:
                68|
                9
              )
            )[019]
          </leadingDigits>
          <format>$1-$2-$3</format>
        </numberFormat>
        <numberFormat pattern=""(\d{3})(\d{2})(\d{4})"" nationalPrefixFormattingRule=""$NP$FG"">
          <leadingDigits>
            [14]|
            [289][2-9]|
            5[3-9]|
            7[2-4679]
          </leadingDigits>
          <format>$1-$2-$3</format>
        </numberFormat>
        <numberFormat pattern=""(\d{4})(\d{2})(\d{3,4})"">
          <leadingDigits>007</leadingDigits>
          <leadingDigits>0077</leadingDigits>
          <format>$1-$2-$3</format>
          <intlFormat>NA</intlFormat>
        </numberFormat>
        <numberFormat pattern=""(\d{4})(\d{2})(\d{4})"">
          <leadingDigits>008</leadingDigits>
          <format>$1-$2-$3</format>
          <intlFormat>NA</intlFormat>
        </numberFormat>
        <numberFormat pattern=""(\d{3})(\d{3})(\d{4})"" nationalPrefixFormattingRule=""$NP$FG"">
          <leadingDigits>800</leadingDigits>
          <format>$1-$2-$3</format>
        </numberFormat>
        <numberFormat pattern=""(\d{2})(\d{4})(\d{4})"" nationalPrefixFormattingRule=""$NP$FG"">
          <leadingDigits>[25-9]</leadingDigits>
          <format>$1-$2-$3</format>
        </numberFormat>
        <numberFormat pattern=""(\d{4})(\d{3})(\d{3,4})"">
          <leadingDigits>0</leadingDigits>
          <format>$1-$2-$3</format>
          <intlFormat>NA</intlFormat>
        </numberFormat>
        <numberFormat pattern=""(\d{4})(\d{4})(\d{4,5})"">
          <leadingDigits>0</leadingDigits>
          <format>$1-$2-$3</format>
          <intlFormat>NA</intlFormat>
        </numberFormat>
        <numberFormat pattern=""(\d{4})(\d{5})(\d{5,6})"">
          <leadingDigits>0</leadingDigits>
          <format>$1-$2-$3</format>
";
   "          <intlFormat>NA</intlFormat>
        </numberFormat>
        <numberFormat pattern=""(\d{4})(\d{6})(\d{6,7})"">
          <leadingDigits>0</leadingDigits>
          <format>$1-$2-$3</format>
          <intlFormat>NA</intlFormat>
        </numberFormat>
      </availableFormats>
      <generalDesc>
        <nationalNumberPattern>
          00[1-9]\d{6,14}|
          [25-9]\d{9}|
          (?:
            00|
            [1-9]\d\d
          )\d{6}
        </nationalNumberPattern>
      </generalDesc>
      <!-- Toll-free numbers with a leading ""00"" cannot be dialled internationally. -->
      <noInternationalDialling>
        <possibleLengths national=""[8-17]""/>
        <nationalNumberPattern>
          00(?:
            777(?:
              [01]|
              (?:
                5|
                8\d
              )\d
            )|
            882[1245]\d\d
          )\d\d|
          00(?:
            37|
            66|
            78
          )\d{6,13}
        </nationalNumberPattern>
      </noInternationalDialling>
      <fixedLine>
        <possibleLengths national=""9""/>
        <exampleNumber>312345678</exampleNumber>
        <nationalNumberPattern>
          (?:
            1(?:
              1[235-8]|
              2[3-6]|
              3[3-9]|
              4[2-6]|
              [58][2-8]|
              6[2-7]|
              7[2-9]|
              9[1-9]
            )|
            (?:
              2[2-9]|
              [36][1-9]
            )\d|
            4(?:
              [2-578]\d|
              6[02-8]|
              9[2-59]
            )|
            5(?:
              [2-589]\d|
              6[1-9]|
              7[2-8]
            )|
            7(?:
              [25-9]\d|
              3[4-9]|
              4[02-9]
            )|
            8(?:
              [2679]\d|
              3[2-9]|
              4[5-9]|
              5[1-9]|
              8[03-9]
            )|
            9(?:
              [2-58]\d|
              [679][1-9]
";
   "            )
          )\d{6}
        </nationalNumberPattern>
      </fixedLine>
      <mobile>
        <possibleLengths national=""10""/>
        <exampleNumber>9012345678</exampleNumber>
        <nationalNumberPattern>[6-9]0[1-9]\d{7}</nationalNumberPattern>
      </mobile>
      <pager>
        <possibleLengths national=""10""/>
        <exampleNumber>2012345678</exampleNumber>
        <nationalNumberPattern>20\d{8}</nationalNumberPattern>
      </pager>
      <!-- http://www.kddi.com/english/business/free_call_dx/number.html and
           http://tm.softbank.jp/english/business/phone_service/freecall_sp/index.html
           http://eonet.jp/home/denwa/service/access.html
           http://ci.fusioncom.co.jp/feature/
           http://www.auhikari.jp/service/tel/connection/index.html -->
      <!-- Note that in fact, the number length for 0037 and 0066 numbers should extend to 21
           digits, confirmed with Yahoo JP. However, this extends well beyond the maximum number
           length allowed by ITU and hence our library, so we only allow numbers up to 17 digits
           for now (including both leading 00s). -->
      <tollFree>
        <possibleLengths national=""[8-17]""/>
        <exampleNumber>120123456</exampleNumber>
        <nationalNumberPattern>
          00777(?:
            [01]|
            5\d
          )\d\d|
          (?:
            00(?:
              7778|
              882[1245]
            )|
            (?:
              120|
              800\d
            )\d\d
          )\d{4}|
          00(?:
            37|
            66|
            78
          )\d{6,13}
        </nationalNumberPattern>
      </tollFree>
      <premiumRate>
        <possibleLengths national=""9""/>
        <exampleNumber>990123456</exampleNumber>
        <nationalNumberPattern>990\d{6}</nationalNumberPattern>
      </premiumRate>
      <personalNumber>
        <possibleLengths national=""9""/>
        <exampleNumber>601234567</exampleNumber>
        <nationalNumberPattern>60\d{7}</nationalNumberPattern>
";
   "      </personalNumber>
      <voip>
        <possibleLengths national=""10""/>
        <exampleNumber>5012345678</exampleNumber>
        <nationalNumberPattern>50[1-9]\d{7}</nationalNumberPattern>
      </voip>
      <!-- Storing ""unified number service"" as UAN. -->
      <uan>
        <possibleLengths national=""9""/>
        <exampleNumber>570123456</exampleNumber>
        <nationalNumberPattern>570\d{6}</nationalNumberPattern>
      </uan>
    </territory>"];
  ["

    <!-- Kenya (KE) -->
    <!-- http://www.ca.go.ke/index.php/numbering -->
    <!-- https://www.itu.int/oth/T0202000070/en -->
    <!-- http://en.wikipedia.org/wiki/+254 -->
    <territory id=""KE"" countryCode=""254"" internationalPrefix=""000"" nationalPrefix=""0""
               mobileNumberPortableRegion=""true"">
      <availableFormats>
        <numberFormat pattern=""(\d{2})(\d{5,7})"" nationalPrefixFormattingRule=""$NP$FG"">
          <leadingDigits>[24-6]</leadingDigits>
          <format>$1 $2</format>
        </numberFormat>
        <numberFormat pattern=""(\d{3})(\d{6})"" nationalPrefixFormattingRule=""$NP$FG"">
          <leadingDigits>[17]</leadingDigits>
          <format>$1 $2</format>
        </numberFormat>
        <numberFormat pattern=""(\d{3})(\d{3})(\d{3,4})"" nationalPrefixFormattingRule=""$NP$FG"">
          <leadingDigits>[89]</leadingDigits>
          <format>$1 $2 $3</format>
        </numberFormat>
      </availableFormats>
      <generalDesc>
        <nationalNumberPattern>
          (?:
            [17]\d\d|
            900
          )\d{6}|
          (?:
            2|
            80
          )0\d{6,7}|
          [4-6]\d{6,8}
        </nationalNumberPattern>
      </generalDesc>
      <!-- The prefixes 046, 050, 058, and 066 may appear online in less than 9 digits but
           calling them has confirmed these are outdated. However a 7-digit 068 number was
           dialed successfully so we consider these valid despite the plan. Range 65 is still
           supported based on ca.go.ke's doc even though its not mentioned in ITU doc. -->
      <fixedLine>
        <possibleLengths national=""[7-9]""/>
        <exampleNumber>202012345</exampleNumber>
        <nationalNumberPattern>
          (?:
            4[245]|
            5[1-79]|
            6[01457-9]
          )\d{5,7}|
          (?:
            4[136]|
            5[08]|
            62
          )\d{7}|
          (?:
            [24]0|
            66
          )\d{6,7}
        </nationalNumberPattern>
";
   "      </fixedLine>
      <!-- Per www.ca.go.ke range 1\d{8} is mobile. The range has not been assigned to an operator
           yet and no working numbers were found online. Not adding the range for now.
           As per Communication authority of Kenya range 10[0-2] is assigned to ""Airtel"" and 11[01]
           is assigned to ""Safaricom"". -->
      <mobile>
        <possibleLengths national=""9""/>
        <exampleNumber>712123456</exampleNumber>
        <nationalNumberPattern>
          (?:
            1(?:
              0[0-8]|
              1\d|
              2[014]|
              30|
              4[0-5]
            )|
            7\d\d
          )\d{6}
        </nationalNumberPattern>
      </mobile>
      <!-- Longer numbers have been found than the plan suggests, so we support them here too. -->
      <!-- The plan suggests 0844 and 0845 may belong here, but these are short numbers rather
           than prefixes:
           http://www.telkomkenya.8k.com/Products/v/2.html
           http://www.kenya-advisor.com/phone-calls-kenya.html
           http://www.telkom.co.ke/index.php?option=com_content&view=article&id=64&Itemid=98 -->
      <tollFree>
        <possibleLengths national=""9,10""/>
        <exampleNumber>800223456</exampleNumber>
        <nationalNumberPattern>800[02-8]\d{5,6}</nationalNumberPattern>
      </tollFree>
      <premiumRate>
        <possibleLengths national=""9""/>
        <exampleNumber>900223456</exampleNumber>
        <nationalNumberPattern>900[02-9]\d{5}</nationalNumberPattern>
      </premiumRate>
    </territory>"];
  ["

    <!-- Kyrgyzstan (KG) -->
    <!-- No premiumRate information can be found. -->
    <!-- http://www.itu.int/oth/T0202000074/en -->
    <territory id=""KG"" countryCode=""996"" internationalPrefix=""00"" nationalPrefix=""0"">
      <availableFormats>
        <numberFormat pattern=""(\d{4})(\d{5})"" nationalPrefixFormattingRule=""$NP$FG"">
          <leadingDigits>
            3(?:
              1[346]|
              [24-79]
            )
          </leadingDigits>
          <format>$1 $2</format>
        </numberFormat>
        <numberFormat pattern=""(\d{3})(\d{3})(\d{3})"" nationalPrefixFormattingRule=""$NP$FG"">
          <leadingDigits>
            [235-79]|
            88
          </leadingDigits>
          <format>$1 $2 $3</format>
        </numberFormat>
        <numberFormat pattern=""(\d{3})(\d{3})(\d)(\d{2,3})"" nationalPrefixFormattingRule=""$NP$FG"">
          <leadingDigits>8</leadingDigits>
          <format>$1 $2 $3 $4</format>
        </numberFormat>
      </availableFormats>
      <generalDesc>
        <nationalNumberPattern>
          8\d{9}|
          [235-9]\d{8}
        </nationalNumberPattern>
      </generalDesc>
      <!-- Extra area codes found on Web Search: 3147. -->
      <fixedLine>
        <possibleLengths national=""9"" localOnly=""5,6""/>
        <exampleNumber>312123456</exampleNumber>
        <nationalNumberPattern>
          312(?:
            5[0-79]\d|
            9(?:
              [0-689]\d|
              7[0-24-9]
            )
          )\d{3}|
          (?:
            3(?:
              1(?:
                2[0-46-8]|
                3[1-9]|
                47|
                [56]\d
              )|
              2(?:
                22|
                3[0-479]|
                6[0-7]
              )|
              4(?:
                22|
                5[6-9]|
                6\d
              )|
              5(?:
                22|
                3[4-7]|
                59|
                6\d
              )|
              6(?:
                22|
";
   "                5[35-7]|
                6\d
              )|
              7(?:
                22|
                3[468]|
                4[1-9]|
                59|
                [67]\d
              )|
              9(?:
                22|
                4[1-8]|
                6\d
              )
            )|
            6(?:
              09|
              12|
              2[2-4]
            )\d
          )\d{5}
        </nationalNumberPattern>
      </fixedLine>
      <mobile>
        <possibleLengths national=""9""/>
        <exampleNumber>700123456</exampleNumber>
        <nationalNumberPattern>
          312(?:
            58\d|
            973
          )\d{3}|
          (?:
            2(?:
              0[0-35]|
              2\d
            )|
            5[0-24-7]\d|
            600|
            7(?:
              [07]\d|
              55
            )|
            88[08]|
            9(?:
              12|
              9[05-9]
            )
          )\d{6}
        </nationalNumberPattern>
      </mobile>
      <!-- Ad";
   "d an extra digit to the number pattern since the only toll-free number found on Web
           Search contains 10 digits instead of the 9 digits specified in the ITU document. -->
      <tollFree>
        <possibleLengths national=""9,10""/>
        <exampleNumber>800123456</exampleNumber>
        <nationalNumberPattern>800\d{6,7}</nationalNumberPattern>
      </tollFree>
    </territory>"];
  ["

    <!-- Cambodia (KH) -->
    <!-- http://www.itu.int/oth/T0202000023/en -->
    <!-- http://en.wikipedia.org/wiki/+855 -->
    <territory id=""KH"" countryCode=""855"" internationalPrefix=""00[14-9]"" nationalPrefix=""0"">
      <availableFormats>
        <!-- General format for most number ranges -->
        <numberFormat pattern=""(\d{2})(\d{3})(\d{3,4})"" nationalPrefixFormattingRule=""$NP$FG"">
          <leadingDigits>[1-9]</leadingDigits>
          <format>$1 $2 $3</format>
        </numberFormat>
        <!-- Toll-free and premium rate numbers -->
        <numberFormat pattern=""(\d{4})(\d{3})(\d{3})"">
          <leadingDigits>1</leadingDigits>
          <format>$1 $2 $3</format>
        </numberFormat>
      </availableFormats>
      <generalDesc>
        <nationalNumberPattern>
          1\d{9}|
          [1-9]\d{7,8}
        </nationalNumberPattern>
      </generalDesc>
      <!-- Allowing subscriber numbers beginning with 5 since Mobitel have informed us they have
           started issuing fixed-line numbers like this. Apparently, mobile-company-issued
           fixed-line numbers are one digit longer than government-issued numbers. Moreover, the
           range beginning with 6 seems to in";
   "clude some numbers that are one digit longer as well.
           Allowing 238\d{6} and 234[234]\d{4} based on information fr";
   "om Cambodia Yellow Pages.
           Note that numbers beginning with 234 are split across two patterns. -->
      <fixedLine>
        <possibleLengths national=""8,9"" localOnly=""6,7""/>
        <exampleNumber>23756789</exampleNumber>
        <nationalNumberPattern>
          23(?:
            4(?:
              [2-4]|
              [56]\d
            )|
            [568]\d\d
          )\d{4}|
          23[236-9]\d{5}|
          (?:
            2[4-6]|
            3[2-6]|
            4[2-4]|
            [5-7][2-5]
          )(?:
            (?:
              [237-9]|
              4[56]|
              5\d
            )\d{5}|
            6\d{5,6}
          )
";
   "        </nationalNumberPattern>
      </fixedLine>
      <!-- SMART uses prefixes 01[056], 070, 08[167] and 09[368].
           Beeline uses 060.
           Mobitel uses 01[1247].
           Cellcard uses 0857 and 061.
           Extra prefixes found online: 088, 097.
           Allowing 9-digit 1[28], 31, 38 and 76 numbers based on information fr";
   "om Cambodia Yellow
           Pages and online search. Allowing 71 based on open-source report and online search. -->
      <mobile>
        <possibleLengths national=""8,9""/>
        <exampleNumber>91234567</exampleNumber>
        <nationalNumberPattern>
          (?:
            (?:
              1[28]|
              3[18]|
              9[67]
            )\d|
            6[016-9]|
            7(?:
              [07-9]|
              [16]\d
            )|
            8(?:
              [013-79]|
              8\d
            )
          )\d{6}|
          (?:
            1\d|
            9[0-57-9]
          )\d{6}|
          (?:
            2[3-6]|
            3[2-6]|
            4[2-4]|
            [5-7][2-5]
          )48\d{5}
        </nationalNumberPattern>
      </mobile>
      <!-- Adding extra prefix 180021 used by tollfreetc.com.kh. -->
      <tollFree>
        <possibleLengths national=""10""/>
        <exampleNumber>1800123456</exampleNumber>
        <nationalNumberPattern>
          1800(?:
            1\d|
            2[019]
          )\d{4}
        </nationalNumberPattern>
      </tollFree>
      <premiumRate>
        <possibleLengths national=""10""/>
        <exampleNumber>1900123456</exampleNumber>
        <nationalNumberPattern>
          1900(?:
            1\d|
            2[09]
          )\d{4}
        </nationalNumberPattern>
      </premiumRate>
    </territory>"];
  ["

    <!-- Kiribati (KI) -->
    <!-- We in";
   "clude the national prefix for parsing here just in case numbers can be dialled with a
         leading 0 - no numbers online have been found formatted this way, but the ITU document
         lists it as a national dialling prefix. -->
    <!-- http://www.itu.int/oth/T0202000071/en -->
    <territory id=""KI"" countryCode=""686"" internationalPrefix=""00"" nationalPrefix=""0"">
      <generalDesc>
        <nationalNumberPattern>
          (?:
            [37]\d|
            6[0-79]
          )\d{6}|
          (?:
            [2-48]\d|
            50
          )\d{3}
        </nationalNumberPattern>
      </generalDesc>
      <!-- The 5-digit numbers are in a parallel running period where they transition to 8-digit
           numbers beginning with 7. This period was stated to run between July 1 2016 and July 1
           2018 in the ITU communication of 27.VI.2017, although some numbers may have ended
           transition in 2017, such as 75381xxx which is not present in the communication of
           27.VI.2017, whereas it was in the communication of 1.VIII.2016 where the period was
           stated to en";
   "d in 2017. -->
      <!-- Granularity for fixedLine numbers prefixed by 6 and 7 is high, to disambiguate between
           them and mobile ranges with equal shorter prefixes. -->
      <fixedLine>
        <possibleLengths national=""5,8""/>
        <exampleNumber>31234</exampleNumber>
        <nationalNumberPattern>
          (?:
            [24]\d|
            3[1-9]|
            50|
            65(?:
              02[12]|
              12[56]|
              22[89]|
              [3-5]00
            )|
            7(?:
              27\d\d|
              3100|
              5(?:
                02[12]|
                12[56]|
                22[89]|
                [34](?:
                  00|
                  81
                )|
                500
              )
            )|
            8[0-5]
          )\d{3}
        </nationalNumberPattern>
";
   "      </fixedLine>
      <mobile>
        <possibleLengths national=""8""/>
        <exampleNumber>72001234</exampleNumber>
        <nationalNumberPattern>
          (?:
            6200[01]|
            7(?:
              310[1-9]|
              5(?:
                02[03-9]|
                12[0-47-9]|
                22[0-7]|
                [34](?:
                  0[1-9]|
                  8[02-9]
                )|
                50[1-9]
              )
            )
          )\d{3}|
          (?:
            63\d\d|
            7(?:
              (?:
                [0146-9]\d|
                2[0-689]
              )\d|
              3(?:
                [02-9]\d|
                1[1-9]
              )|
              5(?:
                [0-2][013-9]|
                [34][1-79]|
                5[1-9]|
                [6-9]\d
              )
            )
          )\d{4}
        </nationalNumberPattern>
      </mobile>
      <!-- ITU refers to these as ""Overseas Operator"" (used to call Phone Group's usage
           ""Telemedia and audiotext""). -->
      <voip>
        <possibleLengths national=""8""/>
        <exampleNumber>30010000</exampleNumber>
        <nationalNumberPattern>
          30(?:
            0[01]\d\d|
            12(?:
              11|
              20
            )
          )\d\d
        </nationalNumberPattern>
      </voip>
    </territory>"];
  ["

    <!-- Comoros (KM) -->
    <!-- http://www.itu.int/oth/T020200002D/en -->
    <territory id=""KM"" countryCode=""269"" internationalPrefix=""00"">
      <availableFormats>
        <numberFormat pattern=""(\d{3})(\d{2})(\d{2})"">
          <leadingDigits>[3478]</leadingDigits>
          <format>$1 $2 $3</format>
        </numberFormat>
      </availableFormats>
      <generalDesc>
        <nationalNumberPattern>[3478]\d{6}</nationalNumberPattern>
      </generalDesc>
      <!-- CDMA phones are included here, as they are considered as an extension of fixed line:
           http://www.comorestelecom.km/presentationcdma.php -->
      <fixedLine>
        <possibleLengths national=""7"" localOnly=""4""/>
        <exampleNumber>7712345</exampleNumber>
        <nationalNumberPattern>7[4-7]\d{5}</nationalNumberPattern>
      </fixedLine>
      <mobile>
        <possibleLengths national=""7""/>
        <exampleNumber>3212345</exampleNumber>
        <nationalNumberPattern>[34]\d{6}</nationalNumberPattern>
      </mobile>
      <!-- These are referred to as value-added services in the plan and no further information
           can be found. -->
      <premiumRate>
        <possibleLengths national=""7""/>
        <exampleNumber>8001234</exampleNumber>
        <nationalNumberPattern>8\d{6}</nationalNumberPattern>
      </premiumRate>
    </territory>"];
  ["

    <!-- St. Kitts & Nevis (KN) -->
    <!-- Calling code and formatting shared with 'US' -->
    <!-- http://www.itu.int/oth/T02020000B0/en -->
    <territory id=""KN"" countryCode=""1"" leadingDigits=""869"" internationalPrefix=""011""
               nationalPrefix=""1"" nationalPrefixForParsing=""([2-7]\d{6})$|1""
               nationalPrefixTransformRule=""869$1"" mobileNumberPortableRegion=""true"">
      <generalDesc>
        <nationalNumberPattern>
          (?:
            [58]\d\d|
            900
          )\d{7}
        </nationalNumberPattern>
      </generalDesc>
      <!-- Adding the 869 302 prefix as it is used by Marriott Hotels, even though no other record
           of it can be found. -->
      <fixedLine>
        <possibleLengths national=""10"" localOnly=""7""/>
        <exampleNumber>8692361234</exampleNumber>
        <nationalNumberPattern>
          869(?:
            2(?:
              29|
              36
            )|
            302|
            4(?:
              6[015-9]|
              70
            )|
            56[5-7]
          )\d{4}
        </nationalNumberPattern>
      </fixedLine>
      <!-- Added some more prefixes in the 66 and 76 range fr";
   "om online numbers. -->
      <!-- Example number fr";
   "om the ITU document. -->
      <mobile>
        <possibleLengths national=""10"" localOnly=""7""/>
        <exampleNumber>8697652917</exampleNumber>
        <nationalNumberPattern>
          869(?:
            48[89]|
            55[6-8]|
            66\d|
            76[02-7]
          )\d{4}
        </nationalNumberPattern>
      </mobile>
      <tollFree>
        <possibleLengths national=""10""/>
        <exampleNumber>8002123456</exampleNumber>
        <nationalNumberPattern>
          8(?:
            00|
            33|
            44|
            55|
            66|
            77|
            88
          )[2-9]\d{6}
        </nationalNumberPattern>
      </tollFree>
      <premiumRate>
        <possibleLengths national=""10""/>
        <exampleNumber>9002123456</exampleNumber>
";
   "        <nationalNumberPattern>900[2-9]\d{6}</nationalNumberPattern>
      </premiumRate>
      <!-- https://www.nationalnanpa.com/number_resource_info/5XX_codes.html -->
      <personalNumber>
        <possibleLengths national=""10""/>
        <exampleNumber>5002345678</exampleNumber>
        <nationalNumberPattern>
          52(?:
            3(?:
              [2-46-9][02-9]\d|
              5(?:
                [02-46-9]\d|
                5[0-46-9]
              )
            )|
            4(?:
              [2-478][02-9]\d|
              5(?:
                [034]\d|
                2[024-9]|
                5[0-46-9]
              )|
              6(?:
                0[1-9]|
                [2-9]\d
              )|
              9(?:
                [05-9]\d|
                2[0-5]|
                49
              )
            )
          )\d{4}|
          52[34][2-9]1[02-9]\d{4}|
          5(?:
            00|
            2[125-9]|
            3[23]|
            44|
            66|
            77|
            88
          )[2-9]\d{6}
        </nationalNumberPattern>
      </personalNumber>
    </territory>"];
  ["

    <!-- North Korea (KP) -->
    <!-- http://en.wikipedia.org/wiki/%2B850 -->
    <territory id=""KP"" countryCode=""850"" internationalPrefix=""00|99"" nationalPrefix=""0"">
      <availableFormats>
        <numberFormat pattern=""(\d{2})(\d{3})(\d{3})"" nationalPrefixFormattingRule=""$NP$FG"">
          <leadingDigits>8</leadingDigits>
          <format>$1 $2 $3</format>
        </numberFormat>
        <numberFormat pattern=""(\d)(\d{3})(\d{4})"" nationalPrefixFormattingRule=""$NP$FG"">
          <leadingDigits>[2-7]</leadingDigits>
          <format>$1 $2 $3</format>
        </numberFormat>
        <numberFormat pattern=""(\d{3})(\d{3})(\d{4})"" nationalPrefixFormattingRule=""$NP$FG"">
          <leadingDigits>1</leadingDigits>
          <format>$1 $2 $3</format>
        </numberFormat>
      </availableFormats>
      <generalDesc>
        <nationalNumberPattern>
          85\d{6}|
          (?:
            19\d|
            [2-7]
          )\d{7}
        </nationalNumberPattern>
      </generalDesc>
      <!-- For numbers starting with 2, only the 2381 range can be dialed internationally. -->
      <noInternationalDialling>
        <possibleLengths national=""8""/>
        <nationalNumberPattern>
          238[02-9]\d{4}|
          2(?:
            [0-24-9]\d|
            3[0-79]
          )\d{5}
        </nationalNumberPattern>
      </noInternationalDialling>
      <!-- Covers only numbers fr";
   "om Pyongyang and Rason Economic Special Zone. According to
           wikipedia, other ranges of phone numbers are top secret, unpublished, and not dialable
           fr";
   "om overseas. Also, there is conflicting information about the length of fixed-line
           numbers, so here we are following Wikipedia. -->
      <fixedLine>
        <possibleLengths national=""8,10"" localOnly=""6,7""/>
        <exampleNumber>21234567</exampleNumber>
        <nationalNumberPattern>
          (?:
            (?:
              195|
              2
            )\d|
            3[19]|
            4[159]|
            5[37]|
";
   "            6[17]|
            7[39]|
            85
          )\d{6}
        </nationalNumberPattern>
      </fixedLine>
      <mobile>
        <possibleLengths national=""10""/>
        <exampleNumber>1921234567</exampleNumber>
        <nationalNumberPattern>19[1-3]\d{7}</nationalNumberPattern>
      </mobile>
    </territory>"];
  ["

    <!-- South Korea (KR) -->
    <!-- Exceptions :
         internationalPrefix
             0031, 0033, 0071, 0073 - Special services of KT and DACOM, ignorable.
             Supporting prefixes that are only in use. For prefixes like 003XX and 007XX, the
             service provider can make arbitrary service + numbers.
         nationalPrefix
             1[4-6]XX-YYYY - Country-wide common number services, display as it is without hyphens.
         00798 is an ITFS range. So it doesn't appear here as internationalPrefix. -->
    <!-- http://www.itu.int/oth/T0202000072/en -->
    <!-- http://en.wikipedia.org/wiki/%2B82 -->
    <!-- http://www.kcc.go.kr/user.do?mode=view&page=P02030300&dc=K02030300&boardId=1074&boardSeq=2349 -->
    <!-- http://www.kcc.go.kr/user.do?mode=view&page=P02030300&dc=K02030300&boardId=1074&boardSeq=2240 -->
    <!-- http://www.telecentro.co.kr/sub/index.php?job=detail&ebcf_id=faq&page=1&mid=0503&eb_seq=36 -->
    <territory id=""KR"" countryCode=""82""
               internationalPrefix=""00(?:[125689]|3(?:[46]5|91)|7(?:00|27|3|55|6[126]))""
               nationalPrefix=""0"" nationalPrefixForParsing=""0(8(?:[1-46-8]|5\d\d))?""
               mobileNumberPortableRegion=""true"">
      <availableFormats>
        <!-- Format for 5 digit short codes. -->
        <numberFormat pattern=""(\d{5})"" nationalPrefixFormattingRule=""$NP$FG"">
          <leadingDigits>1[016-9]1</leadingDigits>
          <leadingDigits>1[016-9]11</leadingDigits>
          <leadingDigits>1[016-9]114</leadingDigits>
          <format>$1</format>
          <intlFormat>NA</intlFormat>
        </numberFormat>
        <!-- Fixed-line number ranges with 5-6 digits. -->
        <numberFormat pattern=""(\d{2})(\d{3,4})"" nationalPrefixFormattingRule=""$NP$FG""
                      carrierCodeFormattingRule=""$NP$CC-$FG"">
          <leadingDigits>
            (?:
              3[1-3]|
              [46][1-4]|
              5[1-5]
            )1
          </leadingDigits>
          <format>$1-$2</format>
";
   "        </numberFormat>
        <!-- UAN numbers. -->
        <numberFormat pattern=""(\d{4})(\d{4})"">
          <leadingDigits>1</leadingDigits>
          <format>$1-$2</format>
        </numberFormat>
        <!-- Fixed-line number ranges with 8-9 digits. -->
        <numberFormat pattern=""(\d)(\d{3,4})(\d{4})"" nationalPrefixFormattingRule=""$NP$FG""
                      carrierCodeFormattingRule=""$NP$CC-$FG"">
          <leadingDigits>2</leadingDigits>
          <format>$1-$2-$3</format>
        </numberFormat>
        <!-- Premium-rate and 9-digit toll-free numbers. -->
        <numberFormat pattern=""(\d{2})(\d{3})(\d{4})"" nationalPrefixFormattingRule=""$NP$FG""
                      carrierCodeFormattingRule=""$NP$CC-$FG"">
          <leadingDigits>
            [36]0|
            8
          </leadingDigits>
          <format>$1-$2-$3</format>
        </numberFormat>
        <!-- Mobile, pager, and fixed-line number ranges with 9-10 digits. -->
        <numberFormat pattern=""(\d{2})(\d{3,4})(\d{4})"" nationalPrefixFormattingRule=""$NP$FG""
                      carrierCodeFormattingRule=""$NP$CC-$FG"">
          <leadingDigits>
            [1346]|
            5[1-5]
          </leadingDigits>
          <format>$1-$2-$3</format>
        </numberFormat>
        <!-- 10 digit personal and VOIP numbers. -->
        <numberFormat pattern=""(\d{2})(\d{4})(\d{4})"" nationalPrefixFormattingRule=""$NP$FG""
                      carrierCodeFormattingRule=""$NP$CC-$FG"">
          <leadingDigits>[57]</leadingDigits>
          <format>$1-$2-$3</format>
        </numberFormat>
        <!-- Toll-free numbers with 11 digits. -->
        <numberFormat pattern=""(\d{5})(\d{3})(\d{3})"">
          <leadingDigits>003</leadingDigits>
          <leadingDigits>0030</leadingDigits>
          <format>$1 $2 $3</format>
          <intlFormat>NA</intlFormat>
        </numberFormat>
        <!-- 11 digit personal numbers. -->
        <numberFormat pattern=""(\d{2})(\d{5})(\d{4})"" nationalPrefixFormattingRule=""$NP$FG""
";
   "                      carrierCodeFormattingRule=""$NP$CC-$FG"">
          <leadingDigits>5</leadingDigits>
          <format>$1-$2-$3</format>
        </numberFormat>
        <!-- Toll-free numbers with 12-13 digits. -->
        <numberFormat pattern=""(\d{5})(\d{3,4})(\d{4})"">
          <leadingDigits>0</leadingDigits>
          <format>$1 $2 $3</format>
          <intlFormat>NA</intlFormat>
        </numberFormat>
        <!-- Toll-free numbers with 14 digits. -->
        <numberFormat pattern=""(\d{5})(\d{2})(\d{3})(\d{4})"">
          <leadingDigits>0</leadingDigits>
          <format>$1 $2 $3 $4</format>
          <intlFormat>NA</intlFormat>
        </numberFormat>
      </availableFormats>
      <generalDesc>
        <nationalNumberPattern>
          00[1-9]\d{8,11}|
          (?:
            [12]|
            5\d{3}
          )\d{7}|
          [13-6]\d{9}|
          (?:
            [1-6]\d|
            80
          )\d{7}|
          [3-6]\d{4,5}|
          (?:
            00|
            7
          )0\d{8}
        </nationalNumberPattern>
      </generalDesc>
      <!-- 00798 ITFS numbers can't be dialled internationally. -->
      <!-- Based on online results, supporting 00308 and 00368 toll-free numbers that are
           diallable only within the country. -->
      <noInternationalDialling>
        <possibleLengths national=""[11-14]""/>
        <nationalNumberPattern>
          00(?:
            3(?:
              08\d{6,7}|
              68\d{7}
            )|
            798\d{7,9}
          )
        </nationalNumberPattern>
      </noInternationalDialling>
      <!-- We omit 049, supposedly for Kaesong Industrial Region, since real numbers can't be
           found, and it is in North Korea anyway. We support 7-8 digits long subscriber numbers
           starting with 1 based on evidence of real numbers found online. Some short codes
           (1\d{2,3}) can be dialled with area codes. So we are supporting them when they are
           prefixed with valid area codes. -->
";
   "      <fixedLine>
        <possibleLengths national=""5,6,[8-10]"" localOnly=""3,4,7""/>
        <exampleNumber>22123456</exampleNumber>
        <nationalNumberPattern>
          (?:
            2|
            3[1-3]|
            [46][1-4]|
            5[1-5]
          )[1-9]\d{6,7}|
          (?:
            3[1-3]|
            [46][1-4]|
            5[1-5]
          )1\d{2,3}
        </nationalNumberPattern>
      </fixedLine>
      <!-- Prefix 10596 added based on user report -->
      <mobile>
        <possibleLengths national=""9,10""/>
        <exampleNumber>1020000000</exampleNumber>
        <nationalNumberPattern>
          1(?:
            05(?:
              [0-8]\d|
              9[0-6]
            )|
            22[13]\d
          )\d{4,5}|
          1(?:
            0[0-46-9]|
            [16-9]\d|
            2[013-9]
          )\d{6,7}
        </nationalNumberPattern>
      </mobile>
      <pager>
        <possibleLengths national=""9,10""/>
        <exampleNumber>1523456789</exampleNumber>
        <nationalNumberPattern>15\d{7,8}</nationalNumberPattern>
      </pager>
      <tollFree>
        <possibleLengths national=""9,[11-14]""/>
        <exampleNumber>801234567</exampleNumber>
        <nationalNumberPattern>
          00(?:
            308\d{6,7}|
            798\d{7,9}
          )|
          (?:
            00368|
            [38]0
          )\d{7}
        </nationalNumberPattern>
      </tollFree>
      <!-- The information below is provided by a Korean person. -->
      <premiumRate>
        <possibleLengths national=""9""/>
        <exampleNumber>602345678</exampleNumber>
        <nationalNumberPattern>60[2-9]\d{6}</nationalNumberPattern>
      </premiumRate>
      <!-- Supporting 11 digit 50 numbers based on evidence provided by reporter. -->
      <personalNumber>
        <possibleLengths national=""10,11""/>
        <exampleNumber>5012345678</exampleNumber>
        <nationalNumberPattern>50\d{8,9}</nationalNumberPattern>
      </personalNumber>
      <voip>
";
   "        <possibleLengths national=""10""/>
        <exampleNumber>7012345678</exampleNumber>
        <nationalNumberPattern>70\d{8}</nationalNumberPattern>
      </voip>
      <!-- Prefixes 18 and 1522 are added fr";
   "om numbers found online. -->
      <uan>
        <possibleLengths national=""8""/>
        <exampleNumber>15441234</exampleNumber>
        <nationalNumberPattern>
          1(?:
            5(?:
              22|
              33|
              44|
              66|
              77|
              88|
              99
            )|
            6(?:
              [07]0|
              44|
              6[0168]|
              88
            )|
            8(?:
              00|
              33|
              55|
              77|
              99
            )
          )\d{4}
        </nationalNumberPattern>
      </uan>
    </territory>"];
  ["

    <!-- Kuwait (KW) -->
    <!-- No tollFree or premiumRate information can be found. -->
    <!-- http://www.itu.int/oth/T0202000073/en -->
    <territory id=""KW"" countryCode=""965"" internationalPrefix=""00"" mobileNumberPortableRegion=""true"">
      <availableFormats>
        <!-- Format is fr";
   "om ITU. -->
        <numberFormat pattern=""(\d{4})(\d{3,4})"">
          <leadingDigits>
            [169]|
            2(?:
              [235]|
              4[1-35-9]
            )|
            52
          </leadingDigits>
          <format>$1 $2</format>
        </numberFormat>
        <numberFormat pattern=""(\d{3})(\d{5})"">
          <leadingDigits>[245]</leadingDigits>
          <format>$1 $2</format>
        </numberFormat>
      </availableFormats>
      <generalDesc>
        <nationalNumberPattern>
          18\d{5}|
          (?:
            [2569]\d|
            41
          )\d{6}
        </nationalNumberPattern>
      </generalDesc>
      <fixedLine>
        <possibleLengths national=""8""/>
        <exampleNumber>22345678</exampleNumber>
        <nationalNumberPattern>
          2(?:
            [23]\d\d|
            4(?:
              [1-35-9]\d|
              44
            )|
            5(?:
              0[034]|
              [2-46]\d|
              5[1-3]|
              7[1-7]
            )
          )\d{4}
        </nationalNumberPattern>
      </fixedLine>
      <!-- Supported 966[1-9] range based on numbers found online. -->
      <!-- 989X range is mentioned in older (15.IV.2014) ITU doc but it is not mentioned in
           ITU doc dated 5.V.2017. As valid numbers are found online, supporting the range. -->
      <mobile>
        <possibleLengths national=""8""/>
        <exampleNumber>50012345</exampleNumber>
        <nationalNumberPattern>
          (?:
            41\d\d|
            5(?:
              (?:
                [05]\d|
                1[0-7]|
                6[56]
              )\d|
              2(?:
                22|
                5[25]
";
   "              )|
              7(?:
                55|
                77
              )|
              88[58]
            )|
            6(?:
              (?:
                0[034679]|
                5[015-9]|
                6\d
              )\d|
              1(?:
                00|
                11|
                6[16]
              )|
              2[26]2|
              3[36]3|
              4[46]4|
              7(?:
                0[013-9]|
                [67]\d
              )|
              8[68]8|
              9(?:
                [069]\d|
                3[039]
              )
            )|
            9(?:
              (?:
                [04679]\d|
                8[057-9]
              )\d|
              1(?:
                00|
                1[01]|
                99
              )|
              2(?:
                00|
                2\d
              )|
              3(?:
                00|
                3[03]
              )|
              5(?:
                00|
                5\d
              )
            )
          )\d{4}
        </nationalNumberPattern>
      </mobile>
      <!-- 18XX XXX was earlier assigned to Fixedline but the latest ITU Doc and also citra.gov.kw
           confirmed that these are Toll Free numbers. -->
      <tollFree>
        <possibleLengths national=""7""/>
        <exampleNumber>1801234</exampleNumber>
        <nationalNumberPattern>18\d{5}</nationalNumberPattern>
      </tollFree>
    </territory>"];
  ["

    <!-- Cayman Islands (KY) -->
    <!-- Calling code and formatting shared with 'US' -->
    <!-- http://www.itu.int/oth/T0202000027/en -->
    <territory id=""KY"" countryCode=""1"" leadingDigits=""345"" internationalPrefix=""011""
               nationalPrefix=""1"" nationalPrefixForParsing=""([2-9]\d{6})$|1""
               nationalPrefixTransformRule=""345$1"" mobileNumberPortableRegion=""true"">
      <generalDesc>
        <nationalNumberPattern>
          (?:
            345|
            [58]\d\d|
            900
          )\d{7}
        </nationalNumberPattern>
      </generalDesc>
      <!-- The 800 NXX code is listed as being ""national only"", but we successfully reached numbers
           fr";
   "om Switzerland with this prefix so do not list it as noInternationalDialling. -->
      <!-- The Westtel numbers in the plan seem now to be live and assigned to fixed-line phones,
           as per numbers found online and their website http://www.logic.ky. -->
      <fixedLine>
        <possibleLengths national=""10"" localOnly=""7""/>
        <exampleNumber>3452221234</exampleNumber>
        <nationalNumberPattern>
          345(?:
            2(?:
              22|
              3[23]|
              44|
              66
            )|
            333|
            444|
            6(?:
              23|
              38|
              40
            )|
            7(?:
              30|
              4[35-79]|
              6[6-9]|
              77
            )|
            8(?:
              00|
              1[45]|
              4[89]|
              88
            )|
            9(?:
              14|
              4[035-9]
            )
          )\d{4}
        </nationalNumberPattern>
      </fixedLine>
      <!-- Adding central office codes 576, 923 and 936 fr";
   "om numbers found online.
           Most central office codes that were surrendered have not been included, with the
           exception of 546 where numbers have been found. -->
      <mobile>
        <possibleLengths national=""10"" localOnly=""7""/>
";
   "        <exampleNumber>3453231234</exampleNumber>
        <nationalNumberPattern>
          345(?:
            32[1-9]|
            4(?:
              1[2-6]|
              2[0-4]
            )|
            5(?:
              1[67]|
              2[5-79]|
              4[6-9]|
              50|
              76
            )|
            649|
            82[56]|
            9(?:
              1[679]|
              2[2-9]|
              3[06-9]|
              90
            )
          )\d{4}
        </nationalNumberPattern>
      </mobile>
      <tollFree>
        <possibleLengths national=""10""/>
        <exampleNumber>8002345678</exampleNumber>
        <nationalNumberPattern>
          8(?:
            00|
            33|
            44|
            55|
            66|
            77|
            88
          )[2-9]\d{6}
        </nationalNumberPattern>
      </tollFree>
      <premiumRate>
        <possibleLengths national=""10""/>
        <exampleNumber>9002345678</exampleNumber>
        <nationalNumberPattern>
          (?:
            345976|
            900[2-9]\d\d
          )\d{4}
        </nationalNumberPattern>
      </premiumRate>
      <!-- https://www.nationalnanpa.com/number_resource_info/5XX_codes.html -->
      <personalNumber>
        <possibleLengths national=""10""/>
        <exampleNumber>5002345678</exampleNumber>
        <nationalNumberPattern>
          52(?:
            3(?:
              [2-46-9][02-9]\d|
              5(?:
                [02-46-9]\d|
                5[0-46-9]
              )
            )|
            4(?:
              [2-478][02-9]\d|
              5(?:
                [034]\d|
                2[024-9]|
                5[0-46-9]
              )|
              6(?:
                0[1-9]|
                [2-9]\d
              )|
              9(?:
                [05-9]\d|
                2[0-5]|
                49
              )
            )
          )\d{4}|
          52[34][2-9]1[02-9]\d{4}|
          5(?:
            00|
";
   "            2[125-9]|
            3[23]|
            44|
            66|
            77|
            88
          )[2-9]\d{6}
        </nationalNumberPattern>
      </personalNumber>
    </territory>"];
  ["

    <!-- Kazakhstan (KZ) -->
    <!-- Calling code and formatting shared with 'RU' -->
    <!-- http://www.itu.int/oth/T020200006F/en -->
    <!-- https://telecom.kz/en/catalog/kazahstan.171777/5 -->
    <territory id=""KZ"" countryCode=""7"" leadingDigits=""7"" preferredInternationalPrefix=""8~10""
               internationalPrefix=""810"" nationalPrefix=""8"" mobileNumberPortableRegion=""true"">
      <generalDesc>
        <nationalNumberPattern>
          8\d{13}|
          [78]\d{9}
        </nationalNumberPattern>
      </generalDesc>
      <noInternationalDialling>
        <possibleLengths national=""10""/>
        <nationalNumberPattern>751\d{7}</nationalNumberPattern>
      </noInternationalDialling>
      <!-- VSAT numbers are also included here. We also in";
   "clude the area code for Baikonur (336
           22), which is within Kazakhstan but in fact rented and administered by Russia at the
           moment. Added 7279 fr";
   "om numbers found online. -->
      <fixedLine>
        <possibleLengths national=""10"" localOnly=""[5-7]""/>
        <exampleNumber>7123456789</exampleNumber>
        <nationalNumberPattern>
          7(?:
            1(?:
              0(?:
                [23]\d|
                4[0-3]|
                59|
                63
              )|
              1(?:
                [23]\d|
                4[0-79]|
                59
              )|
              2(?:
                [23]\d|
                59
              )|
              3(?:
                2\d|
                3[0-79]|
                4[0-35-9]|
                59
              )|
              4(?:
                [24]\d|
                3[013-9]|
                5[1-9]|
                97
              )|
              5(?:
                2\d|
                3[1-9]|
                4[0-7]|
                59
              )|
              6(?:
                [2-4]\d|
                5[19]|
                61
              )|
              72\d|
              8(?:
                [27]\d|
";
   "                3[1-46-9]|
                4[0-5]|
                59
              )
            )|
            2(?:
              1(?:
                [23]\d|
                4[46-9]|
                5[3469]
              )|
              2(?:
                2\d|
                3[0679]|
                46|
                5[12679]
              )|
              3(?:
                [2-4]\d|
                5[139]
              )|
              4(?:
                2\d|
                3[1-35-9]|
                59
              )|
              5(?:
                [23]\d|
                4[0-8]|
                59|
                61
              )|
              6(?:
                2\d|
                3[1-9]|
                4[0-4]|
                59
              )|
              7(?:
                [2379]\d|
                40|
                5[279]
              )|
              8(?:
                [23]\d|
                4[0-3]|
                59
              )|
              9(?:
                2\d|
                3[124578]|
                59
              )
            )
          )\d{5}
        </nationalNumberPattern>
      </fixedLine>
      <!-- Added 708 for Altel, 776 for Beeline, 747 for Tele2, confirmed by
           https://ru.wikipedia.org/wiki/Телефонный_план_нумерации_Казахстана -->
      <mobile>
        <possibleLengths national=""10""/>
        <exampleNumber>7710009998</exampleNumber>
        <nationalNumberPattern>
          7(?:
            0[0-25-8]|
            47|
            6[0-4]|
            7[15-8]|
            85
          )\d{7}
        </nationalNumberPattern>
      </mobile>
      <tollFree>
        <possibleLengths national=""10,14""/>
        <exampleNumber>8001234567</exampleNumber>
        <nationalNumberPattern>
          8(?:
            00|
            108\d{3}
          )\d{7}
        </nationalNumberPattern>
      </tollFree>
      <premiumRate>
        <possibleLengths national=""10""/>
        <exampleNumber>8091234567</exampleNumber>
";
   "        <nationalNumberPattern>809\d{7}</nationalNumberPattern>
      </premiumRate>
      <!-- These are referred to as UPT numbers in the plan. -->
      <personalNumber>
        <possibleLengths national=""10""/>
        <exampleNumber>8081234567</exampleNumber>
        <nationalNumberPattern>808\d{7}</nationalNumberPattern>
      </personalNumber>
      <voip>
        <possibleLengths national=""10""/>
        <exampleNumber>7511234567</exampleNumber>
        <nationalNumberPattern>751\d{7}</nationalNumberPattern>
      </voip>
    </territory>"];
  ["

    <!-- Laos (LA) -->
    <!-- Seems incomplete -->
    <!-- http://www.itu.int/oth/T0202000075/en -->
    <!-- http://en.wikipedia.org/wiki/+856 -->
    <territory id=""LA"" countryCode=""856"" internationalPrefix=""00"" nationalPrefix=""0"">
      <availableFormats>
        <!-- Format for fixed-line numbers. -->
        <numberFormat pattern=""(\d{2})(\d{3})(\d{3})"" nationalPrefixFormattingRule=""$NP$FG"">
          <leadingDigits>
            2[13]|
            3[14]|
            [4-8]
          </leadingDigits>
          <format>$1 $2 $3</format>
        </numberFormat>
        <!-- Format for 9 digit Mobile numbers. -->
        <numberFormat pattern=""(\d{2})(\d{2})(\d{2})(\d{3})"" nationalPrefixFormattingRule=""$NP$FG"">
          <leadingDigits>3</leadingDigits>
          <format>$1 $2 $3 $4</format>
        </numberFormat>
        <!-- Format for mobile numbers. -->
        <numberFormat pattern=""(\d{2})(\d{2})(\d{3})(\d{3})"" nationalPrefixFormattingRule=""$NP$FG"">
          <leadingDigits>[23]</leadingDigits>
          <format>$1 $2 $3 $4</format>
        </numberFormat>
      </availableFormats>
      <generalDesc>
        <nationalNumberPattern>
          [23]\d{9}|
          3\d{8}|
          (?:
            [235-8]\d|
            41
          )\d{6}
        </nationalNumberPattern>
      </generalDesc>
      <fixedLine>
        <possibleLengths national=""8"" localOnly=""6""/>
        <exampleNumber>21212862</exampleNumber>
        <nationalNumberPattern>
          (?:
            2[13]|
            [35-7][14]|
            41|
            8[1468]
          )\d{6}
        </nationalNumberPattern>
      </fixedLine>
      <!-- Adding 202[89], 205[289], 207[68] and 209[135-7] fr";
   "om numbers found online. -->
      <mobile>
        <possibleLengths national=""9,10""/>
        <exampleNumber>2023123456</exampleNumber>
        <nationalNumberPattern>
          (?:
            20(?:
              [23579]\d|
              8[78]
            )|
            30[24]\d
          )\d{6}|
";
   "          30\d{7}
        </nationalNumberPattern>
      </mobile>
    </territory>"];
  ["

    <!-- Lebanon (LB) -->
    <!-- http://www.itu.int/oth/T0202000077/en -->
    <!-- http://en.wikipedia.org/wiki/%2B961 -->
    <territory id=""LB"" countryCode=""961"" internationalPrefix=""00"" nationalPrefix=""0"">
      <availableFormats>
        <numberFormat pattern=""(\d)(\d{3})(\d{3})"" nationalPrefixFormattingRule=""$NP$FG"">
          <leadingDigits>
            [13-69]|
            7(?:
              [2-57]|
              62|
              8[0-6]|
              9[04-9]
            )|
            8[02-9]
          </leadingDigits>
          <format>$1 $2 $3</format>
        </numberFormat>
        <numberFormat pattern=""(\d{2})(\d{3})(\d{3})"">
          <leadingDigits>[27-9]</leadingDigits>
          <format>$1 $2 $3</format>
        </numberFormat>
      </availableFormats>
      <generalDesc>
        <nationalNumberPattern>
          [27-9]\d{7}|
          [13-9]\d{6}
        </nationalNumberPattern>
      </generalDesc>
      <fixedLine>
        <possibleLengths national=""7,8""/>
        <exampleNumber>1123456</exampleNumber>
        <nationalNumberPattern>
          7(?:
            62|
            8[0-6]|
            9[04-9]
          )\d{4}|
          (?:
            [14-69]\d|
            2(?:
              [14-69]\d|
              [78][1-9]
            )|
            7[2-57]|
            8[02-9]
          )\d{5}
        </nationalNumberPattern>
      </fixedLine>
      <!-- We only validate the first three digits here, since the ranges are growing rapidly.
           The 79[02-9] prefixes were added fr";
   "om bug reports and numbers found online. -->
      <mobile>
        <possibleLengths national=""7,8""/>
        <exampleNumber>71123456</exampleNumber>
        <nationalNumberPattern>
          (?:
            (?:
              3|
              81
            )\d|
            7(?:
              [01]\d|
              6[013-9]|
              8[7-9]|
              9[0-4]
            )
          )\d{5}
        </nationalNumberPattern>
      </mobile>
      <premiumRate>
";
   "        <possibleLengths national=""8""/>
        <exampleNumber>90123456</exampleNumber>
        <nationalNumberPattern>9[01]\d{6}</nationalNumberPattern>
      </premiumRate>
      <sharedCost>
        <possibleLengths national=""8""/>
        <exampleNumber>80123456</exampleNumber>
        <nationalNumberPattern>80\d{6}</nationalNumberPattern>
      </sharedCost>
    </territory>"];
  ["

    <!-- St. Lucia (LC) -->
    <!-- Calling code and formatting shared with 'US' -->
    <!-- http://www.itu.int/oth/T02020000B1/en -->
    <territory id=""LC"" countryCode=""1"" leadingDigits=""758"" internationalPrefix=""011""
               nationalPrefix=""1"" nationalPrefixForParsing=""([2-8]\d{6})$|1""
               nationalPrefixTransformRule=""758$1"" mobileNumberPortableRegion=""true"">
      <generalDesc>
        <nationalNumberPattern>
          (?:
            [58]\d\d|
            758|
            900
          )\d{7}
        </nationalNumberPattern>
      </generalDesc>
      <!-- Adding 430 since numbers have been found with these prefixes online. -->
      <fixedLine>
        <possibleLengths national=""10"" localOnly=""7""/>
        <exampleNumber>7584305678</exampleNumber>
        <nationalNumberPattern>
          758(?:
            234|
            4(?:
              30|
              5\d|
              6[2-9]|
              8[0-2]
            )|
            57[0-2]|
            (?:
              63|
              75
            )8
          )\d{4}
        </nationalNumberPattern>
      </fixedLine>
      <mobile>
        <possibleLengths national=""10"" localOnly=""7""/>
        <exampleNumber>7582845678</exampleNumber>
        <nationalNumberPattern>
          758(?:
            28[4-7]|
            384|
            4(?:
              6[01]|
              8[4-9]
            )|
            5(?:
              1[89]|
              20|
              84
            )|
            7(?:
              1[2-9]|
              2\d|
              3[0-3]
            )|
            812
          )\d{4}
        </nationalNumberPattern>
      </mobile>
      <tollFree>
        <possibleLengths national=""10""/>
        <exampleNumber>8002123456</exampleNumber>
        <nationalNumberPattern>
          8(?:
            00|
            33|
            44|
            55|
            66|
            77|
            88
          )[2-9]\d{6}
        </nationalNumberPattern>
      </tollFree>
";
   "      <premiumRate>
        <possibleLengths national=""10""/>
        <exampleNumber>9002123456</exampleNumber>
        <nationalNumberPattern>900[2-9]\d{6}</nationalNumberPattern>
      </premiumRate>
      <!-- https://www.nationalnanpa.com/number_resource_info/5XX_codes.html -->
      <personalNumber>
        <possibleLengths national=""10""/>
        <exampleNumber>5002345678</exampleNumber>
        <nationalNumberPattern>
          52(?:
            3(?:
              [2-46-9][02-9]\d|
              5(?:
                [02-46-9]\d|
                5[0-46-9]
              )
            )|
            4(?:
              [2-478][02-9]\d|
              5(?:
                [034]\d|
                2[024-9]|
                5[0-46-9]
              )|
              6(?:
                0[1-9]|
                [2-9]\d
              )|
              9(?:
                [05-9]\d|
                2[0-5]|
                49
              )
            )
          )\d{4}|
          52[34][2-9]1[02-9]\d{4}|
          5(?:
            00|
            2[125-9]|
            3[23]|
            44|
            66|
            77|
            88
          )[2-9]\d{6}
        </nationalNumberPattern>
      </personalNumber>
    </territory>"];
  ["

    <!-- Liechtenstein (LI) -->
    <!-- The national prefix of ""0"" is only used for 0800 and 0900 numbers. Three carrier-selection
         codes are in use. -->
    <!-- http://www.llv.li/#/11193 -->
    <!-- https://www.itu.int/oth/T020200007B/en -->
    <territory id=""LI"" countryCode=""423"" internationalPrefix=""00"" nationalPrefix=""0""
               nationalPrefixForParsing=""(1001)|0"">
      <availableFormats>
        <!-- Number format for national mobile services, fixed-line, toll-free, UAN and premium rate services.
             Some different patterns for tollfree and shared cost numbers may be found by searching
             for Mehrwertnummer at http://www.telecom.li. -->
        <numberFormat pattern=""(\d{3})(\d{2})(\d{2})"" carrierCodeFormattingRule=""$CC $FG"">
          <leadingDigits>
            [2379]|
            8(?:
              0[09]|
              7
            )
          </leadingDigits>
          <leadingDigits>
            [2379]|
            8(?:
              0(?:
                02|
                9
              )|
              7
            )
          </leadingDigits>
          <format>$1 $2 $3</format>
        </numberFormat>
        <numberFormat pattern=""(\d{3})(\d{3})(\d{3})"">
          <leadingDigits>8</leadingDigits>
          <format>$1 $2 $3</format>
        </numberFormat>
        <!-- Number format for voicemail services. -->
        <numberFormat pattern=""(\d{2})(\d{3})(\d{4})"" carrierCodeFormattingRule=""$CC $FG"">
          <leadingDigits>69</leadingDigits>
          <format>$1 $2 $3</format>
        </numberFormat>
        <!-- Number format for international mobile services. -->
        <numberFormat pattern=""(\d{3})(\d{3})(\d{3})"" carrierCodeFormattingRule=""$CC $FG"">
          <leadingDigits>6</leadingDigits>
          <format>$1 $2 $3</format>
        </numberFormat>
      </availableFormats>
      <generalDesc>
        <nationalNumberPattern>
          [68]\d{8}|
          (?:
            [2378]\d|
            90
          )\d{5}
";
   "        </nationalNumberPattern>
      </generalDesc>
      <fixedLine>
        <possibleLengths national=""7""/>
        <exampleNumber>2345678</exampleNumber>
        <nationalNumberPattern>
          (?:
            2(?:
              01|
              1[27]|
              2[024]|
              3\d|
              6[02-578]|
              96
            )|
            3(?:
              [24]0|
              33|
              7[0135-7]|
              8[048]|
              9[0269]
            )
          )\d{4}
        </nationalNumberPattern>
      </fixedLine>
      <mobile>
        <possibleLengths national=""7,9""/>
        <exampleNumber>660234567</exampleNumber>
        <nationalNumberPattern>
          (?:
            6(?:
              (?:
                4[5-9]|
                5\d
              )\d|
              6(?:
                [024-68]\d|
                1[01]|
                3[7-9]|
                70
              )
            )\d|
            7(?:
              [37-9]\d|
              42|
              56
            )
          )\d{4}
        </nationalNumberPattern>
      </mobile>
      <!-- The prefix 809 seems to be used for AT&T and Verizon access lines fr";
   "om Liechtenstein,
           even though it doesn't appear in the plan. Prefix 8005 of length 9-digit added on user report. -->
      <tollFree>
        <possibleLengths national=""7,9""/>
        <exampleNumber>8002222</exampleNumber>
        <nationalNumberPattern>
          8002[28]\d\d|
          80(?:
            05\d|
            9
          )\d{4}
        </nationalNumberPattern>
      </tollFree>
      <premiumRate>
        <possibleLengths national=""7""/>
        <exampleNumber>9002222</exampleNumber>
        <nationalNumberPattern>
          90(?:
            02[258]|
            1(?:
              23|
              3[14]
            )|
            66[136]
          )\d\d
        </nationalNumberPattern>
      </premiumRate>
      <uan>
        <possibleLengths national=""7""/>
        <exampleNumber>8702812</exampleNumber>
";
   "        <nationalNumberPattern>
          870(?:
            28|
            87
          )\d\d
        </nationalNumberPattern>
      </uan>
      <voicemail>
        <possibleLengths national=""9""/>
        <exampleNumber>697861234</exampleNumber>
        <nationalNumberPattern>
          697(?:
            42|
            56|
            [78]\d
          )\d{4}
        </nationalNumberPattern>
      </voicemail>
    </territory>"];
  ["

    <!-- Sri Lanka (LK) -->
    <!-- http://en.wikipedia.org/wiki/%2B94 -->
    <!-- http://www.itu.int/oth/T02020000C3/en -->
    <territory id=""LK"" countryCode=""94"" internationalPrefix=""00"" nationalPrefix=""0"">
      <availableFormats>
        <!-- Format for mobile numbers. -->
        <numberFormat pattern=""(\d{2})(\d{3})(\d{4})"" nationalPrefixFormattingRule=""$NP$FG"">
          <leadingDigits>7</leadingDigits>
          <format>$1 $2 $3</format>
        </numberFormat>
        <!-- Format for fixed-line numbers. The two digit area code and single digit operator
             codes are grouped as it is the most common way of writing fixed-line numbers in LK. -->
        <numberFormat pattern=""(\d{3})(\d{3})(\d{3})"" nationalPrefixFormattingRule=""$NP$FG"">
          <leadingDigits>[1-689]</leadingDigits>
          <format>$1 $2 $3</format>
        </numberFormat>
      </availableFormats>
      <generalDesc>
        <nationalNumberPattern>[1-9]\d{8}</nationalNumberPattern>
      </generalDesc>
      <!-- The first two digits are area codes followed by single digit operator codes ([2-57]).
           There is evidence that lo";
   "cal dialling is supported by removing the area code, but
           not the operator code. This results in the area code length not matching the first
           group of the format (which is very unusual). As there is no evidence for how lo";
   "cal
           numbers would be formatted, that has been omitted for now. -->
      <fixedLine>
        <possibleLengths national=""9"" localOnly=""7""/>
        <exampleNumber>112345678</exampleNumber>
        <nationalNumberPattern>
          (?:
            12[2-9]|
            602|
            8[12]\d|
            9(?:
              1\d|
              22|
              9[245]
            )
          )\d{6}|
          (?:
            11|
            2[13-7]|
            3[1-8]|
            4[157]|
            5[12457]|
            6[35-7]
          )[2-57]\d{6}
        </nationalNumberPattern>
      </fixedLine>
";
   "      <!-- Adding the prefix 76 for Dialog, based on information fr";
   "om open-source users. -->
      <!-- Adding Prefix 702 and 703 based on update fr";
   "om Mobitel which has verified these
           prefixes to be correct. -->
      <mobile>
        <possibleLengths national=""9""/>
        <exampleNumber>712345678</exampleNumber>
        <nationalNumberPattern>
          7(?:
            [0-25-8]\d|
            4[0-4]
          )\d{6}
        </nationalNumberPattern>
      </mobile>
      <!-- Prefix 1973 is assigned to SriLankan Airlines in various locations. -->
      <uan>
        <possibleLengths national=""9""/>
        <exampleNumber>197312345</exampleNumber>
        <nationalNumberPattern>1973\d{5}</nationalNumberPattern>
      </uan>
    </territory>"];
  ["

    <!-- Liberia (LR) -->
    <!-- http://www.itu.int/oth/T0202000079/en -->
    <territory id=""LR"" countryCode=""231"" internationalPrefix=""00"" nationalPrefix=""0"">
      <availableFormats>
        <numberFormat pattern=""(\d)(\d{3})(\d{3})"" nationalPrefixFormattingRule=""$NP$FG"">
          <leadingDigits>
            4[67]|
            [56]
          </leadingDigits>
          <format>$1 $2 $3</format>
        </numberFormat>
        <!-- Formatting fr";
   "om Ministry of Agriculture,
             http://www.moa.gov.lr/content.php?sub=Email&?related=Contacts -->
        <numberFormat pattern=""(\d{2})(\d{3})(\d{3})"" nationalPrefixFormattingRule=""$NP$FG"">
          <leadingDigits>2</leadingDigits>
          <format>$1 $2 $3</format>
        </numberFormat>
        <numberFormat pattern=""(\d{2})(\d{3})(\d{4})"" nationalPrefixFormattingRule=""$NP$FG"">
          <leadingDigits>[2-578]</leadingDigits>
          <format>$1 $2 $3</format>
        </numberFormat>
      </availableFormats>
      <generalDesc>
        <nationalNumberPattern>
          (?:
            [2457]\d|
            33|
            88
          )\d{7}|
          (?:
            2\d|
            [4-6]
          )\d{6}
        </nationalNumberPattern>
      </generalDesc>
      <fixedLine>
        <possibleLengths national=""8""/>
        <exampleNumber>21234567</exampleNumber>
        <nationalNumberPattern>2\d{7}</nationalNumberPattern>
      </fixedLine>
      <!-- West Africa Telecom seems to be a mobile company fr";
   "om their website. -->
      <mobile>
        <possibleLengths national=""7,9""/>
        <exampleNumber>770123456</exampleNumber>
        <nationalNumberPattern>
          (?:
            (?:
              (?:
                22|
                33
              )0|
              555|
              7(?:
                6[01]|
                7\d
              )|
              88\d
            )\d|
            4(?:
              240|
              [67]
            )
          )\d{5}|
          [56]\d{6}
        </nationalNumberPattern>
";
   "      </mobile>
      <premiumRate>
        <possibleLengths national=""9""/>
        <exampleNumber>332021234</exampleNumber>
        <nationalNumberPattern>
          332(?:
            02|
            [34]\d
          )\d{4}
        </nationalNumberPattern>
      </premiumRate>
    </territory>"];
  ["

    <!-- Lesotho (LS) -->
    <!-- http://www.itu.int/oth/T0202000078/en -->
    <territory id=""LS"" countryCode=""266"" internationalPrefix=""00"">
      <availableFormats>
        <!-- Formatting following yellow pages: http://www.yellowpages.co.ls -->
        <numberFormat pattern=""(\d{4})(\d{4})"">
          <leadingDigits>[2568]</leadingDigits>
          <format>$1 $2</format>
        </numberFormat>
      </availableFormats>
      <generalDesc>
        <nationalNumberPattern>
          (?:
            [256]\d\d|
            800
          )\d{5}
        </nationalNumberPattern>
      </generalDesc>
      <fixedLine>
        <possibleLengths national=""8""/>
        <exampleNumber>22123456</exampleNumber>
        <nationalNumberPattern>2\d{7}</nationalNumberPattern>
      </fixedLine>
      <mobile>
        <possibleLengths national=""8""/>
        <exampleNumber>50123456</exampleNumber>
        <nationalNumberPattern>[56]\d{7}</nationalNumberPattern>
      </mobile>
      <tollFree>
        <possibleLengths national=""8""/>
        <exampleNumber>80021234</exampleNumber>
        <nationalNumberPattern>800[1256]\d{4}</nationalNumberPattern>
      </tollFree>
    </territory>"];
  ["

    <!-- Lithuania (LT) -->
    <!-- Note that Lithuania switched to national prefix 0. The former prefix
         8 will continue to be operational until 28 February 2025. -->
    <!-- http://www.itu.int/oth/T020200007C/en -->
    <!-- National Prefix formatting rule fr";
   "om http://www.yellowpages.lt -->
    <territory id=""LT"" countryCode=""370"" internationalPrefix=""00"" nationalPrefix=""0""
               nationalPrefixForParsing=""[08]"" mobileNumberPortableRegion=""true"">
      <availableFormats>
        <!-- 1 digit area code (fixed line only) -->
        <numberFormat pattern=""(\d)(\d{3})(\d{4})"" nationalPrefixFormattingRule=""($NP-$FG)""
                      nationalPrefixOptionalWhenFormatting=""true"">
          <leadingDigits>52[0-7]</leadingDigits>
          <format>$1 $2 $3</format>
        </numberFormat>
        <!-- Non-geographic numbers (toll free, UAN etc.) -->
        <numberFormat pattern=""(\d{3})(\d{2})(\d{3})"" nationalPrefixFormattingRule=""$NP $FG""
                      nationalPrefixOptionalWhenFormatting=""true"">
          <leadingDigits>[7-9]</leadingDigits>
          <format>$1 $2 $3</format>
        </numberFormat>
        <!-- 2 digit area codes (fixed line only) -->
        <numberFormat pattern=""(\d{2})(\d{6})"" nationalPrefixFormattingRule=""($NP-$FG)""
                      nationalPrefixOptionalWhenFormatting=""true"">
          <leadingDigits>
            37|
            4(?:
              [15]|
              6[1-8]
            )
          </leadingDigits>
          <format>$1 $2</format>
        </numberFormat>
        <!-- 3 digit area codes and other formats (mobile etc.) -->
        <numberFormat pattern=""(\d{3})(\d{5})"" nationalPrefixFormattingRule=""($NP-$FG)""
                      nationalPrefixOptionalWhenFormatting=""true"">
          <leadingDigits>[3-6]</leadingDigits>
          <format>$1 $2</format>
        </numberFormat>
      </availableFormats>
      <generalDesc>
        <nationalNumberPattern>
          (?:
            [3469]\d|
            52|
";
   "            [78]0
          )\d{6}
        </nationalNumberPattern>
      </generalDesc>
      <fixedLine>
        <possibleLengths national=""8""/>
        <exampleNumber>31234567</exampleNumber>
        <nationalNumberPattern>
          (?:
            3[1478]|
            4[124-6]|
            52
          )\d{6}
        </nationalNumberPattern>
      </fixedLine>
      <mobile>
        <possibleLengths national=""8""/>
        <exampleNumber>61234567</exampleNumber>
        <nationalNumberPattern>6\d{7}</nationalNumberPattern>
      </mobile>
      <tollFree>
        <possibleLengths national=""8""/>
        <exampleNumber>80012345</exampleNumber>
        <nationalNumberPattern>80[02]\d{5}</nationalNumberPattern>
      </tollFree>
      <premiumRate>
        <possibleLengths national=""8""/>
        <exampleNumber>90012345</exampleNumber>
        <nationalNumberPattern>
          9(?:
            0[0239]|
            10
          )\d{5}
        </nationalNumberPattern>
      </premiumRate>
      <sharedCost>
        <possibleLengths national=""8""/>
        <exampleNumber>80812345</exampleNumber>
        <nationalNumberPattern>808\d{5}</nationalNumberPattern>
      </sharedCost>
      <personalNumber>
        <possibleLengths national=""8""/>
        <exampleNumber>70012345</exampleNumber>
        <nationalNumberPattern>70[05]\d{5}</nationalNumberPattern>
      </personalNumber>
      <voip>
        <possibleLengths national=""8""/>
        <exampleNumber>80123456</exampleNumber>
        <nationalNumberPattern>[89]01\d{5}</nationalNumberPattern>
      </voip>
      <!-- Including government service numbers here too. -->
      <uan>
        <possibleLengths national=""8""/>
        <exampleNumber>70712345</exampleNumber>
        <nationalNumberPattern>70[67]\d{5}</nationalNumberPattern>
      </uan>
    </territory>"];
  ["

    <!-- Luxembourg (LU) -->
    <!-- https://web.ilr.lu/FR/Professionnels/Communications-electroniques/Pages/HomePage.aspx -->
    <!-- http://legilux.public.lu/eli/etat/leg/rilr/2014/07/14/n2/jo -->
    <territory id=""LU"" countryCode=""352"" internationalPrefix=""00""
               nationalPrefixForParsing=""(15(?:0[06]|1[12]|[35]5|4[04]|6[26]|77|88|99)\d)""
               mobileNumberPortableRegion=""true"">
      <availableFormats>
        <!-- This format is for 5 digit fixed-line ranges. -->
        <numberFormat pattern=""(\d{2})(\d{3})"" carrierCodeFormattingRule=""$CC $FG"">
          <leadingDigits>
            2(?:
              0[2-689]|
              [2-9]
            )|
            [3-57]|
            8(?:
              0[2-9]|
              [13-9]
            )|
            9(?:
              0[89]|
              [2-579]
            )
          </leadingDigits>
          <format>$1 $2</format>
        </numberFormat>
        <!-- Patterns overlap because of va";
   "riable number length. This format is for 6 digit
             fixed-line ranges. -->
        <numberFormat pattern=""(\d{2})(\d{2})(\d{2})"" carrierCodeFormattingRule=""$CC $FG"">
          <leadingDigits>
            2(?:
              0[2-689]|
              [2-9]
            )|
            [3-57]|
            8(?:
              0[2-9]|
              [13-9]
            )|
            9(?:
              0[89]|
              [2-579]
            )
          </leadingDigits>
          <format>$1 $2 $3</format>
        </numberFormat>
        <!-- This format is for 7 digit fixed-line ranges -->
        <numberFormat pattern=""(\d{2})(\d{2})(\d{3})"" carrierCodeFormattingRule=""$CC $FG"">
          <leadingDigits>20[2-689]</leadingDigits>
          <format>$1 $2 $3</format>
        </numberFormat>
        <!-- This format is for 7 and 8 digit fixed-line ranges. -->
        <numberFormat pattern=""(\d{2})(\d{2})(\d{2})(\d{1,2})"" carrierCodeFormattingRule=""$CC $FG"">
          <leadingDigits>20</leadingDigits>
          <format>$1 $2 $3 $4</format>
";
   "        </numberFormat>
        <!-- This format is for 7 to 11 digit fixed-line ranges. -->
        <numberFormat pattern=""(\d{2})(\d{2})(\d{2})(\d{1,5})"" carrierCodeFormattingRule=""$CC $FG"">
          <leadingDigits>
            [3-57]|
            8[13-9]|
            9(?:
              0[89]|
              [2-579]
            )|
            (?:
              2|
              80
            )[2-9]
          </leadingDigits>
          <format>$1 $2 $3 $4</format>
        </numberFormat>
        <!-- Format for va";
   "riable cost types like premium-rate, toll-free. -->
        <numberFormat pattern=""(\d{3})(\d{2})(\d{3})"" carrierCodeFormattingRule=""$CC $FG"">
          <leadingDigits>
            80[01]|
            90[015]
          </leadingDigits>
          <format>$1 $2 $3</format>
        </numberFormat>
        <!-- This format is for 9 digit fixed-line ranges. -->
        <numberFormat pattern=""(\d{2})(\d{2})(\d{2})(\d{3})"" carrierCodeFormattingRule=""$CC $FG"">
          <leadingDigits>20</leadingDigits>
          <format>$1 $2 $3 $4</format>
        </numberFormat>
        <!-- Format for mobile numbers. -->
        <numberFormat pattern=""(\d{3})(\d{3})(\d{3})"" carrierCodeFormattingRule=""$CC $FG"">
          <leadingDigits>6</leadingDigits>
          <format>$1 $2 $3</format>
        </numberFormat>
        <!-- This format is for some 9 or 10 digit fixed-line ranges. -->
        <numberFormat pattern=""(\d{2})(\d{2})(\d{2})(\d{2})(\d{1,2})""
                      carrierCodeFormattingRule=""$CC $FG"">
          <leadingDigits>20</leadingDigits>
          <format>$1 $2 $3 $4 $5</format>
        </numberFormat>
      </availableFormats>
      <generalDesc>
        <nationalNumberPattern>
          35[013-9]\d{4,8}|
          6\d{8}|
          35\d{2,4}|
          (?:
            [2457-9]\d|
            3[0-46-9]
          )\d{2,9}
        </nationalNumberPattern>
      </generalDesc>
      <!-- Even though 20 is listed in the fixed-line plan, other documentation clarify that it is
";
   "           for VOIP. Furthermore, even though the plan says that numbers beginning with 2[346-8]
           by default are 8 digits, fr";
   "om information found online it seems that they can actually
           be 4 up to 11 digits long. -->
      <fixedLine>
        <possibleLengths national=""[4-11]""/>
        <exampleNumber>27123456</exampleNumber>
        <nationalNumberPattern>
          (?:
            35[013-9]|
            80[2-9]|
            90[89]
          )\d{1,8}|
          (?:
            2[2-9]|
            3[0-46-9]|
            [457]\d|
            8[13-9]|
            9[2-579]
          )\d{2,9}
        </nationalNumberPattern>
      </fixedLine>
      <!-- 679 (9 digit) are mentioned as ""special mobile services"" in ilr.lu's doc. Supporting here
           as per Luxembourg Regulation doc of 14 July 2014 which says all mobile ranges start with
           digit 6. -->
      <mobile>
        <possibleLengths national=""9""/>
        <exampleNumber>628123456</exampleNumber>
        <nationalNumberPattern>
          6(?:
            [26][18]|
            5[1568]|
            7[189]|
            81|
            9[128]
          )\d{6}
        </nationalNumberPattern>
      </mobile>
      <tollFree>
        <possibleLengths national=""8""/>
        <exampleNumber>80012345</exampleNumber>
        <nationalNumberPattern>800\d{5}</nationalNumberPattern>
      </tollFree>
      <premiumRate>
        <possibleLengths national=""8""/>
        <exampleNumber>90012345</exampleNumber>
        <nationalNumberPattern>90[015]\d{5}</nationalNumberPattern>
      </premiumRate>
      <sharedCost>
        <possibleLengths national=""8""/>
        <exampleNumber>80112345</exampleNumber>
        <nationalNumberPattern>801\d{5}</nationalNumberPattern>
      </sharedCost>
      <!-- The document says the normal length will be 8 digits, but many numbers found online
           deviate fr";
   "om that. The prefixes fr";
   "om the following document have been added:
           http://www.ilr.public.lu/communications_electroniques/numerotation/plan_nat_num/numeros_geographiques_geo.pdf
";
   "           201 has also been added since a diallable number was found online, and it says in
           http://www.ilr.public.lu/communications_electroniques/decisions/2004/0479.pdf that no
           numbers will be issued that begin with 200, numbers beginning with 201 will be issued
           one at a ti";
   "me, and 202-209 in blocks. -->
      <voip>
        <possibleLengths national=""[4-10]""/>
        <exampleNumber>20201234</exampleNumber>
        <nationalNumberPattern>
          20(?:
            1\d{5}|
            [2-689]\d{1,7}
          )
        </nationalNumberPattern>
      </voip>
    </territory>"];
  ["

    <!-- Latvia (LV) -->
    <!-- http://www.itu.int/oth/T0202000076/en -->
    <!-- http://en.wikipedia.org/wiki/+371 -->
    <territory id=""LV"" countryCode=""371"" internationalPrefix=""00"" mobileNumberPortableRegion=""true"">
      <availableFormats>
        <numberFormat pattern=""(\d{2})(\d{3})(\d{3})"">
          <leadingDigits>
            [2679]|
            8[01]
          </leadingDigits>
          <format>$1 $2 $3</format>
        </numberFormat>
      </availableFormats>
      <generalDesc>
        <nationalNumberPattern>
          (?:
            [268]\d|
            78|
            90
          )\d{6}
        </nationalNumberPattern>
      </generalDesc>
      <fixedLine>
        <possibleLengths national=""8""/>
        <exampleNumber>63123456</exampleNumber>
        <nationalNumberPattern>6\d{7}</nationalNumberPattern>
      </fixedLine>
      <mobile>
        <possibleLengths national=""8""/>
        <exampleNumber>21234567</exampleNumber>
        <nationalNumberPattern>
          2333[0-8]\d{3}|
          2(?:
            [0-24-9]\d\d|
            3(?:
              0[07]|
              [14-9]\d|
              2[02-9]|
              3[0-24-9]
            )
          )\d{4}
        </nationalNumberPattern>
      </mobile>
      <tollFree>
        <possibleLengths national=""8""/>
        <exampleNumber>80123456</exampleNumber>
        <nationalNumberPattern>80\d{6}</nationalNumberPattern>
      </tollFree>
      <premiumRate>
        <possibleLengths national=""8""/>
        <exampleNumber>90123456</exampleNumber>
        <nationalNumberPattern>90\d{6}</nationalNumberPattern>
      </premiumRate>
      <sharedCost>
        <possibleLengths national=""8""/>
        <exampleNumber>81123456</exampleNumber>
        <nationalNumberPattern>81\d{6}</nationalNumberPattern>
      </sharedCost>
    </territory>"];
  ["

    <!-- Libya (LY) -->
    <!-- Status as of 21 Jan 2011: a lot of outdated information on the web including on wikipedia
         and itu.int. The new area codes are on the Arabic website of the main telecommunication
         operator (Hatef Libya). A new mobile operator Aljeel Aljadeed for Technology will start
         using 096 (they are allowing customers to register numbers currently), so their code has
         also been added. -->
    <!-- http://hlc.ly/price.php -->
    <territory id=""LY"" countryCode=""218"" internationalPrefix=""00"" nationalPrefix=""0"">
      <availableFormats>
        <numberFormat pattern=""(\d{2})(\d{7})"" nationalPrefixFormattingRule=""$NP$FG"">
          <leadingDigits>[2-9]</leadingDigits>
          <format>$1-$2</format>
        </numberFormat>
      </availableFormats>
      <generalDesc>
        <nationalNumberPattern>[2-9]\d{8}</nationalNumberPattern>
      </generalDesc>
      <fixedLine>
        <possibleLengths national=""9"" localOnly=""7""/>
        <exampleNumber>212345678</exampleNumber>
        <nationalNumberPattern>
          (?:
            2(?:
              0[56]|
              [1-6]\d|
              7[124579]|
              8[124]
            )|
            3(?:
              1\d|
              2[2356]
            )|
            4(?:
              [17]\d|
              2[1-357]|
              5[2-4]|
              8[124]
            )|
            5(?:
              [1347]\d|
              2[1-469]|
              5[13-5]|
              8[1-4]
            )|
            6(?:
              [1-479]\d|
              5[2-57]|
              8[1-5]
            )|
            7(?:
              [13]\d|
              2[13-79]
            )|
            8(?:
              [124]\d|
              5[124]|
              84
            )
          )\d{6}
        </nationalNumberPattern>
      </fixedLine>
      <!-- The prefix 094 has been added on the strength of numbers found online, and numbers
           where SMS messages have been apparently successfully received. -->
";
   "      <mobile>
        <possibleLengths national=""9""/>
        <exampleNumber>912345678</exampleNumber>
        <nationalNumberPattern>9[1-6]\d{7}</nationalNumberPattern>
      </mobile>
    </territory>"];
  ["

    <!-- Morocco (MA) -->
    <!-- Main region for 'EH' -->
    <!-- http://www.itu.int/oth/T0202000090/en -->
    <!-- http://en.wikipedia.org/wiki/+212 -->
    <!-- https://www.anrt.ma/content/plan-de-numerotation -->
    <!-- https://www.anrt.ma/en/missions/gestion-des-ressources/numerotation -->
    <territory id=""MA"" mainCountryForCode=""true"" countryCode=""212"" leadingDigits=""[5-8]""
               internationalPrefix=""00"" nationalPrefix=""0"" mobileNumberPortableRegion=""true"">
      <availableFormats>
        <numberFormat pattern=""(\d{4})(\d{5})"" nationalPrefixFormattingRule=""$NP$FG"">
          <leadingDigits>892</leadingDigits>
          <format>$1-$2</format>
        </numberFormat>
        <numberFormat pattern=""(\d{2})(\d{7})"" nationalPrefixFormattingRule=""$NP$FG"">
          <leadingDigits>
            8(?:
              0[0-7]|
              9
            )
          </leadingDigits>
          <format>$1-$2</format>
        </numberFormat>
        <numberFormat pattern=""(\d)(\d{2})(\d{2})(\d{2})(\d{2})""
                      nationalPrefixFormattingRule=""$NP$FG"">
          <leadingDigits>[5-8]</leadingDigits>
          <format>$1 $2 $3 $4 $5</format>
        </numberFormat>
      </availableFormats>
      <generalDesc>
        <nationalNumberPattern>[5-8]\d{8}</nationalNumberPattern>
      </generalDesc>
      <!-- Prefix 5220 and 5364 was added fr";
   "om a user report. -->
      <fixedLine>
        <possibleLengths national=""9""/>
        <exampleNumber>520123456</exampleNumber>
        <nationalNumberPattern>
          5(?:
            (?:
              18|
              4[0679]|
              5[03]
            )\d|
            2(?:
              [0-25-79]\d|
              3[1-578]|
              4[02-46-8]|
              8[0235-9]
            )|
            3(?:
              [0-47]\d|
              5[02-9]|
              6[02-8]|
              8[014-9]|
              9[3-9]
            )
          )\d{5}
        </nationalNumberPattern>
      </fixedLine>
      <!-- Also duplicated in Western Sahara, please ensure you update both. -->
";
   "      <mobile>
        <possibleLengths national=""9""/>
        <exampleNumber>650123456</exampleNumber>
        <nationalNumberPattern>
          (?:
            6(?:
              [0-79]\d|
              8[0-247-9]
            )|
            7(?:
              [016-8]\d|
              2[0-8]|
              5[0-5]
            )
          )\d{6}
        </nationalNumberPattern>
      </mobile>
      <tollFree>
        <possibleLengths national=""9""/>
        <exampleNumber>801234567</exampleNumber>
        <nationalNumberPattern>80[0-7]\d{6}</nationalNumberPattern>
      </tollFree>
      <premiumRate>
        <possibleLengths national=""9""/>
        <exampleNumber>891234567</exampleNumber>
        <nationalNumberPattern>89\d{7}</nationalNumberPattern>
      </premiumRate>
      <!-- Putting VSAT numbers here. -->
      <voip>
        <possibleLengths national=""9""/>
        <exampleNumber>592401234</exampleNumber>
        <nationalNumberPattern>
          (?:
            592(?:
              4[0-2]|
              93
            )|
            80[89]\d\d
          )\d{4}
        </nationalNumberPattern>
      </voip>
    </territory>"];
  ["

    <!-- Monaco (MC) -->
    <!-- We support Kosovo mobile numbers (044, 045) with a Monaco calling code here, while Kosovo
         numbers all move over to the +383 plan. Kosovo numbers are still under several calling
         codes. It also seems that the national prefix is only used for mobile numbers, not
         fixed-line. -->
    <!-- http://www.itu.int/oth/T020200008D/en -->
    <territory id=""MC"" countryCode=""377"" internationalPrefix=""00"" nationalPrefix=""0"">
      <availableFormats>
        <!-- National only fixed line numbers -->
        <numberFormat pattern=""(\d{3})(\d{3})(\d{2})"">
          <leadingDigits>87</leadingDigits>
          <format>$1 $2 $3</format>
          <intlFormat>NA</intlFormat>
        </numberFormat>
        <!-- Alternate format for mobile ranges starting with 4.
             4X mobile numbers are actually used by Kosovo, which might explain the format difference. -->
        <numberFormat pattern=""(\d{2})(\d{3})(\d{3})"" nationalPrefixFormattingRule=""$NP$FG"">
          <leadingDigits>4</leadingDigits>
          <format>$1 $2 $3</format>
        </numberFormat>
        <!-- Fixed line and some mobile ranges formatting.
             This formatting was found online rather than in the ITU document example.
             For the mobile prefix 3, we could not get authoritative information, so following
             the behaviour of fixed-line numbers beginning with 9 for now. -->
        <numberFormat pattern=""(\d{2})(\d{2})(\d{2})(\d{2})"">
          <leadingDigits>[389]</leadingDigits>
          <format>$1 $2 $3 $4</format>
        </numberFormat>
        <!-- 9-digit mobile numbers. -->
        <numberFormat pattern=""(\d)(\d{2})(\d{2})(\d{2})(\d{2})""
                      nationalPrefixFormattingRule=""$NP$FG"">
          <leadingDigits>[67]</leadingDigits>
          <format>$1 $2 $3 $4 $5</format>
        </numberFormat>
      </availableFormats>
      <generalDesc>
        <nationalNumberPattern>
          (?:
            [3489]|
            [67]\d
";
   "          )\d{7}
        </nationalNumberPattern>
      </generalDesc>
      <noInternationalDialling>
        <possibleLengths national=""8""/>
        <nationalNumberPattern>8[07]0\d{5}</nationalNumberPattern>
      </noInternationalDialling>
      <!-- Restricted to this as no numbers with the prefix of 91, 95 or 96 have been found. -->
      <fixedLine>
        <possibleLengths national=""8""/>
        <exampleNumber>99123456</exampleNumber>
        <nationalNumberPattern>
          (?:
            870|
            9[2-47-9]\d
          )\d{5}
        </nationalNumberPattern>
      </fixedLine>
      <!-- 4X mobile numbers are actually used by Kosovo, but it is supported here as it is mentioned
           in the ITU doc. -->
      <mobile>
        <possibleLengths national=""8,9""/>
        <exampleNumber>612345678</exampleNumber>
        <nationalNumberPattern>
          4(?:
            [46]\d|
            5[1-9]
          )\d{5}|
          (?:
            3|
            [67]\d
          )\d{7}
        </nationalNumberPattern>
      </mobile>
      <tollFree>
        <possibleLengths national=""8""/>
        <exampleNumber>90123456</exampleNumber>
        <nationalNumberPattern>
          (?:
            800|
            90\d
          )\d{5}
        </nationalNumberPattern>
      </tollFree>
    </territory>"];
  ["

    <!-- Moldova (MD) -->
    <!-- As per the ITU doc, 1010 – 1099 are carrier access codes in Moldova, but we are not sure
         of their usage, such as whether they're used for national or international calls. -->
    <!-- Announcements -->
    <!-- Mobile ranges -->
    <!-- http://www.itu.int/oth/T020200008C/en -->
    <!-- http://anrceti.md/fileupload/58 -->
    <!-- http://en.anrceti.md/resurse_numerotare_tel_mobila -->
    <territory id=""MD"" countryCode=""373"" internationalPrefix=""00"" nationalPrefix=""0""
               mobileNumberPortableRegion=""true"">
      <availableFormats>
        <numberFormat pattern=""(\d{3})(\d{5})"" nationalPrefixFormattingRule=""$NP$FG"">
          <leadingDigits>[89]</leadingDigits>
          <format>$1 $2</format>
        </numberFormat>
        <numberFormat pattern=""(\d{2})(\d{3})(\d{3})"" nationalPrefixFormattingRule=""$NP$FG"">
          <leadingDigits>
            22|
            3
          </leadingDigits>
          <format>$1 $2 $3</format>
        </numberFormat>
        <numberFormat pattern=""(\d{3})(\d{2})(\d{3})"" nationalPrefixFormattingRule=""$NP$FG"">
          <leadingDigits>[25-7]</leadingDigits>
          <format>$1 $2 $3</format>
        </numberFormat>
      </availableFormats>
      <generalDesc>
        <nationalNumberPattern>
          (?:
            [235-7]\d|
            [89]0
          )\d{6}
        </nationalNumberPattern>
      </generalDesc>
      <fixedLine>
        <possibleLengths national=""8""/>
        <exampleNumber>22212345</exampleNumber>
        <nationalNumberPattern>
          (?:
            (?:
              2[1-9]|
              3[1-79]
            )\d|
            5(?:
              33|
              5[257]
            )
          )\d{5}
        </nationalNumberPattern>
      </fixedLine>
      <!-- Includes prefixes for Interdnestrcom, http://www.idknet.com/. -->
      <mobile>
        <possibleLengths national=""8""/>
        <exampleNumber>62112345</exampleNumber>
        <nationalNumberPattern>
";
   "          562\d{5}|
          (?:
            6\d|
            7[16-9]
          )\d{6}
        </nationalNumberPattern>
      </mobile>
      <tollFree>
        <possibleLengths national=""8""/>
        <exampleNumber>80012345</exampleNumber>
        <nationalNumberPattern>800\d{5}</nationalNumberPattern>
      </tollFree>
      <premiumRate>
        <possibleLengths national=""8""/>
        <exampleNumber>90012345</exampleNumber>
        <nationalNumberPattern>90[056]\d{5}</nationalNumberPattern>
      </premiumRate>
      <!-- Information came fr";
   "om en.anrceti.md/node/81 -->
      <sharedCost>
        <possibleLengths national=""8""/>
        <exampleNumber>80812345</exampleNumber>
        <nationalNumberPattern>808\d{5}</nationalNumberPattern>
      </sharedCost>
      <!-- Used for ""nomadic numbers"". -->
      <voip>
        <possibleLengths national=""8""/>
        <exampleNumber>30123456</exampleNumber>
        <nationalNumberPattern>3[08]\d{6}</nationalNumberPattern>
      </voip>
      <uan>
        <possibleLengths national=""8""/>
        <exampleNumber>80312345</exampleNumber>
        <nationalNumberPattern>803\d{5}</nationalNumberPattern>
      </uan>
    </territory>"];
  ["

    <!-- Montenegro (ME) -->
    <!-- According to EKIP, the detailed phone number assignments are published on their
         website (regulation:
         http://www.ekip.me/download/Law%20on%20Electronic%20Communications%20(updated)%204.9.2013%20(1)nova%20verzija.pdf
         ). Thus ITU updates always need to be combined with the information at the below ekip.me source URL. -->
    <!-- http://www.itu.int/oth/T02020000DA/en -->
    <!-- http://en.wikipedia.org/wiki/Telephone_numbers_in_Montenegro -->
    <!-- http://www.ekip.me/numeracija/dodijeljena.php -->
    <territory id=""ME"" countryCode=""382"" internationalPrefix=""00"" nationalPrefix=""0"">
      <availableFormats>
        <numberFormat pattern=""(\d{2})(\d{3})(\d{3,4})"" nationalPrefixFormattingRule=""$NP$FG"">
          <leadingDigits>[2-9]</leadingDigits>
          <format>$1 $2 $3</format>
        </numberFormat>
      </availableFormats>
      <generalDesc>
        <nationalNumberPattern>
          (?:
            20|
            [3-79]\d
          )\d{6}|
          80\d{6,7}
        </nationalNumberPattern>
      </generalDesc>
      <!-- Fixed line numbers have prefix 20,30,31,32,33,40,41,50,51,52 followed by 6 digits.
           The valid options for the third digit were fr";
   "om
           http://www.ekip.me/numeracija/dodijeljena.php -->
      <fixedLine>
        <possibleLengths national=""8"" localOnly=""6""/>
        <exampleNumber>30234567</exampleNumber>
        <nationalNumberPattern>
          (?:
            20[2-8]|
            3(?:
              [0-2][2-7]|
              3[24-7]
            )|
            4(?:
              0[2-467]|
              1[2467]
            )|
            5(?:
              0[2467]|
              1[24-7]|
              2[2-467]
            )
          )\d{5}
        </nationalNumberPattern>
      </fixedLine>
      <!-- According to ITU it is possible for mobile numbers to be 4-12 digits long
           (http://www.itu.int/oth/T02020000DA/en). However, in reality they seem to be 8 digits
";
   "           long. In particular, http://www.ekip.me/numeracija/dodijeljena.php mentions 67[0-2]
           numbers to be 9 digits long but this seems to be no longer the case, based on user
           reports and online examples. -->
      <mobile>
        <possibleLengths national=""8""/>
        <exampleNumber>60123456</exampleNumber>
        <nationalNumberPattern>
          6(?:
            [07-9]\d|
            3[024]|
            6[0-25]
          )\d{5}
        </nationalNumberPattern>
      </mobile>
      <tollFree>
        <possibleLengths national=""8,9""/>
        <exampleNumber>80080002</exampleNumber>
        <nationalNumberPattern>
          80(?:
            [0-2578]|
            9\d
          )\d{5}
        </nationalNumberPattern>
      </tollFree>
      <!-- Numbers with prefix 94 or 95 are services with additional charges. -->
      <premiumRate>
        <possibleLengths national=""8""/>
        <exampleNumber>94515151</exampleNumber>
        <nationalNumberPattern>
          9(?:
            4[1568]|
            5[178]
          )\d{5}
        </nationalNumberPattern>
      </premiumRate>
      <voip>
        <possibleLengths national=""8""/>
        <exampleNumber>78108780</exampleNumber>
        <nationalNumberPattern>78[1-49]\d{5}</nationalNumberPattern>
      </voip>
      <uan>
        <possibleLengths national=""8""/>
        <exampleNumber>77273012</exampleNumber>
        <nationalNumberPattern>77[1-9]\d{5}</nationalNumberPattern>
      </uan>
    </territory>"];
  ["

    <!-- St. Martin (MF) -->
    <!-- Calling code and formatting shared with 'GP' -->
    <!-- Linked fr";
   "om http://www.arcep.fr/index.php?id=interactivenumeros -->
    <!-- http://www.itu.int/oth/T0202000058/en -->
    <!-- http://www.arcep.fr/fileadmin/reprise/dossiers/numero/ZABPQ-ZNE.xls -->
    <!-- https://extranet.arcep.fr/portail/Op%C3%A9rateursCE/Num%C3%A9rotation.aspx -->
    <territory id=""MF"" countryCode=""590"" internationalPrefix=""00"" nationalPrefix=""0""
               mobileNumberPortableRegion=""true"">
      <generalDesc>
        <nationalNumberPattern>
          7090\d{5}|
          (?:
            [56]9|
            [89]\d
          )\d{7}
        </nationalNumberPattern>
      </generalDesc>
      <fixedLine>
        <possibleLengths national=""9""/>
        <exampleNumber>590271234</exampleNumber>
        <nationalNumberPattern>
          (?:
            59(?:
              0(?:
                0[079]|
                [14]3|
                [27][79]|
                3[03-7]|
                5[0-268]|
                87
              )|
              87\d
            )|
            80[6-9]\d\d
          )\d{4}
        </nationalNumberPattern>
      </fixedLine>
      <!-- Any ranges assigned fr";
   "om
           http://www.arcep.fr/index.php?id=interactivenumeros have been listed as belonging to
           Guadeloupe, St Martin and St Barthélemy, since we can't reliably distinguish between
           them. As per Wikipedia Guadeloupe Téléphone Mobile operator is no longer functioning.
           However we support these ranges as they are still mentioned in ARCEP numbering plan
           doc. -->
      <mobile>
        <possibleLengths national=""9""/>
        <exampleNumber>690001234</exampleNumber>
        <nationalNumberPattern>
          (?:
            69(?:
              0\d\d|
              1(?:
                2[2-9]|
                3[0-5]
              )
            )|
            7090[0-4]
          )\d{4}
        </nationalNumberPattern>
      </mobile>
";
   "      <!-- As per ARCEP, mainland France and overseas territories use 0800 to 0805 as Toll-free
           numbers. -->
      <tollFree>
        <possibleLengths national=""9""/>
        <exampleNumber>800012345</exampleNumber>
        <nationalNumberPattern>80[0-5]\d{6}</nationalNumberPattern>
      </tollFree>
      <premiumRate>
        <possibleLengths national=""9""/>
        <exampleNumber>810123456</exampleNumber>
        <nationalNumberPattern>8[129]\d{7}</nationalNumberPattern>
      </premiumRate>
      <voip>
        <possibleLengths national=""9""/>
        <exampleNumber>976012345</exampleNumber>
        <nationalNumberPattern>
          9(?:
            (?:
              39[5-7]|
              76[018]
            )\d|
            475[0-6]
          )\d{4}
        </nationalNumberPattern>
      </voip>
    </territory>"];
  ["

    <!-- Madagascar (MG) -->
    <!-- http://www.itu.int/oth/T020200007F/en -->
    <territory id=""MG"" countryCode=""261"" internationalPrefix=""00"" nationalPrefix=""0""
               nationalPrefixForParsing=""([24-9]\d{6})$|0"" nationalPrefixTransformRule=""20$1"">
      <availableFormats>
        <numberFormat pattern=""(\d{2})(\d{2})(\d{3})(\d{2})"" nationalPrefixFormattingRule=""$NP$FG"">
          <leadingDigits>[23]</leadingDigits>
          <format>$1 $2 $3 $4</format>
        </numberFormat>
      </availableFormats>
      <generalDesc>
        <nationalNumberPattern>[23]\d{8}</nationalNumberPattern>
      </generalDesc>
      <!-- Added the prefixes 20 44 and 20 47 as they seem popular on the internet - the plan says
           20 4 is for the rest of the province of Antanarivo, but then fails to mention any area
           codes beginning with 4. -->
      <fixedLine>
        <possibleLengths national=""9"" localOnly=""7""/>
        <exampleNumber>202123456</exampleNumber>
        <nationalNumberPattern>
          2072[29]\d{4}|
          20(?:
            2\d|
            4[47]|
            5[3467]|
            6[279]|
            7[356]|
            8[268]|
            9[2457]
          )\d{5}
        </nationalNumberPattern>
      </fixedLine>
      <!-- The numbering plan suggests the third digit, Z, should be 24-9, but this is not borne
           out by reality. -->
      <mobile>
        <possibleLengths national=""9""/>
        <exampleNumber>321234567</exampleNumber>
        <nationalNumberPattern>3[2-9]\d{7}</nationalNumberPattern>
      </mobile>
      <!-- Putting VSAT numbers here. -->
      <voip>
        <possibleLengths national=""9""/>
        <exampleNumber>221234567</exampleNumber>
        <nationalNumberPattern>22\d{7}</nationalNumberPattern>
      </voip>
    </territory>"];
  ["

    <!-- Marshall Islands (MH) -->
    <!-- http://www.itu.int/oth/T0202000085/en -->
    <territory id=""MH"" countryCode=""692"" internationalPrefix=""011"" nationalPrefix=""1"">
      <availableFormats>
        <numberFormat pattern=""(\d{3})(\d{4})"">
          <leadingDigits>[2-6]</leadingDigits>
          <format>$1-$2</format>
        </numberFormat>
      </availableFormats>
      <generalDesc>
        <nationalNumberPattern>
          329\d{4}|
          (?:
            [256]\d|
            45
          )\d{5}
        </nationalNumberPattern>
      </generalDesc>
      <fixedLine>
        <possibleLengths national=""7""/>
        <exampleNumber>2471234</exampleNumber>
        <nationalNumberPattern>
          (?:
            247|
            528|
            625
          )\d{4}
        </nationalNumberPattern>
      </fixedLine>
      <mobile>
        <possibleLengths national=""7""/>
        <exampleNumber>2351234</exampleNumber>
        <nationalNumberPattern>
          (?:
            (?:
              23|
              54
            )5|
            329|
            45[35-8]
          )\d{4}
        </nationalNumberPattern>
      </mobile>
      <!-- VSAT prefixes are here. -->
      <voip>
        <possibleLengths national=""7""/>
        <exampleNumber>6351234</exampleNumber>
        <nationalNumberPattern>635\d{4}</nationalNumberPattern>
      </voip>
    </territory>"];
  ["

    <!-- North Macedonia (MK) -->
    <!-- http://www.itu.int/oth/T02020000CE/en -->
    <!-- https://e-agencija.aek.mk/aek-crm-portal/Pages/Public/PublicFreeSeries/PublicFreeSeries -->
    <territory id=""MK"" countryCode=""389"" internationalPrefix=""00"" nationalPrefix=""0""
               mobileNumberPortableRegion=""true"">
      <availableFormats>
        <!-- Formats follow wikipedia. For fixed-line numbers with single digit area codes. -->
        <numberFormat pattern=""(\d)(\d{3})(\d{4})"" nationalPrefixFormattingRule=""$NP$FG"">
          <leadingDigits>
            2|
            34[47]|
            4(?:
              [37]7|
              5[47]|
              64
            )
          </leadingDigits>
          <format>$1 $2 $3</format>
        </numberFormat>
        <!-- For fixed-line numbers with two digit area codes and mobile numbers -->
        <numberFormat pattern=""(\d{2})(\d{3})(\d{3})"" nationalPrefixFormattingRule=""$NP$FG"">
          <leadingDigits>[347]</leadingDigits>
          <format>$1 $2 $3</format>
        </numberFormat>
        <!-- For va";
   "riable cost ranges. Eg: toll-free, premium-rate -->
        <numberFormat pattern=""(\d{3})(\d)(\d{2})(\d{2})"" nationalPrefixFormattingRule=""$NP$FG"">
          <leadingDigits>[58]</leadingDigits>
          <format>$1 $2 $3 $4</format>
        </numberFormat>
      </availableFormats>
      <generalDesc>
        <nationalNumberPattern>[2-578]\d{7}</nationalNumberPattern>
      </generalDesc>
      <!-- For easier maintenance, supporting ranges at 3 digit granularity vs 5 digit granular
           ranges mentioned in AEK's web portal. -->
      <fixedLine>
        <possibleLengths national=""8"" localOnly=""6,7""/>
        <exampleNumber>22012345</exampleNumber>
        <nationalNumberPattern>
          (?:
            (?:
              2(?:
                62|
                77
              )0|
              3444
            )\d|
            4[56]440
          )\d{3}|
          (?:
            34|
            4[357]
";
   "          )700\d{3}|
          (?:
            2(?:
              [0-3]\d|
              5[0-578]|
              6[01]|
              82
            )|
            3(?:
              1[3-68]|
              [23][2-68]|
              4[23568]
            )|
            4(?:
              [23][2-68]|
              4[3-68]|
              5[2568]|
              6[25-8]|
              7[24-68]|
              8[4-68]
            )
          )\d{5}
        </nationalNumberPattern>
      </fixedLine>
      <!-- 79300-79375 were the only ranges assigned to one.Vip according to IR.21 docs. We support
           all of 793 to keep the regex simple. As info in AEK's portal is not complete, supporting
           ranges at 4 digit granularity vs 5 digit granular ranges mentioned. -->
      <mobile>
        <possibleLengths national=""8""/>
        <exampleNumber>72345678</exampleNumber>
        <nationalNumberPattern>
          7(?:
            3555|
            (?:
              474|
              9[019]7
            )7
          )\d{3}|
          7(?:
            [0-25-8]\d\d|
            3(?:
              [1-478]\d|
              6[01]
            )|
            4(?:
              2\d|
              60|
              7[01578]
            )|
            9(?:
              [2-4]\d|
              5[01]|
              7[015]
            )
          )\d{4}
        </nationalNumberPattern>
      </mobile>
      <tollFree>
        <possibleLengths national=""8""/>
        <exampleNumber>80012345</exampleNumber>
        <nationalNumberPattern>800\d{5}</nationalNumberPattern>
      </tollFree>
      <premiumRate>
        <possibleLengths national=""8""/>
        <exampleNumber>50012345</exampleNumber>
        <nationalNumberPattern>5\d{7}</nationalNumberPattern>
      </premiumRate>
      <sharedCost>
        <possibleLengths national=""8""/>
        <exampleNumber>80123456</exampleNumber>
        <nationalNumberPattern>
          8(?:
            0[1-9]|
            [1-9]\d
          )\d{5}
        </nationalNumberPattern>
";
   "      </sharedCost>
    </territory>"];
  ["

    <!-- Mali (ML) -->
    <!-- http://www.itu.int/oth/T0202000083/en -->
    <!-- http://crt-mali.org/pdf/plan_num -->
    <territory id=""ML"" countryCode=""223"" internationalPrefix=""00"">
      <availableFormats>
        <!-- Explicitly block-format some shortcodes where prefixes overlap ""normal"" numbers.
             This is needed since there's no national prefix to distinguish national numbers. -->
        <numberFormat pattern=""(\d{4})"">
          <leadingDigits>
            67[057-9]|
            74[045]
          </leadingDigits>
          <leadingDigits>
            67(?:
              0[09]|
              [59]9|
              77|
              8[89]
            )|
            74(?:
              0[02]|
              44|
              55
            )
          </leadingDigits>
          <format>$1</format>
          <intlFormat>NA</intlFormat>
        </numberFormat>
        <numberFormat pattern=""(\d{2})(\d{2})(\d{2})(\d{2})"">
          <leadingDigits>[24-9]</leadingDigits>
          <format>$1 $2 $3 $4</format>
        </numberFormat>
      </availableFormats>
      <generalDesc>
        <nationalNumberPattern>[24-9]\d{7}</nationalNumberPattern>
      </generalDesc>
      <noInternationalDialling>
        <possibleLengths national=""8""/>
        <nationalNumberPattern>80\d{6}</nationalNumberPattern>
      </noInternationalDialling>
      <fixedLine>
        <possibleLengths national=""8""/>
        <exampleNumber>20212345</exampleNumber>
        <nationalNumberPattern>
          2(?:
            07[0-8]|
            12[67]
          )\d{4}|
          (?:
            2(?:
              02|
              1[4-689]
            )|
            4(?:
              0[0-4]|
              4[1-59]
            )
          )\d{5}
        </nationalNumberPattern>
      </fixedLine>
      <mobile>
        <possibleLengths national=""8""/>
        <exampleNumber>65012345</exampleNumber>
        <nationalNumberPattern>
          2(?:
            0(?:
              01|
              79
";
   "            )|
            17\d
          )\d{4}|
          (?:
            5[0-3]|
            [679]\d|
            8[2-59]
          )\d{6}
        </nationalNumberPattern>
      </mobile>
      <!-- Online examples have not been found, but this seems to follow the prescriptions in the
           plan. -->
      <tollFree>
        <possibleLengths national=""8""/>
        <exampleNumber>80012345</exampleNumber>
        <nationalNumberPattern>80\d{6}</nationalNumberPattern>
      </tollFree>
    </territory>"];
  ["

    <!-- Myanmar (Burma) (MM) -->
    <!-- http://www.itu.int/oth/T0202000092/en -->
    <territory id=""MM"" countryCode=""95"" internationalPrefix=""00"" nationalPrefix=""0"">
      <availableFormats>
        <!-- 1-digit area codes (short format). -->
        <numberFormat pattern=""(\d)(\d{2})(\d{3})"" nationalPrefixFormattingRule=""$NP$FG"">
          <leadingDigits>
            16|
            2
          </leadingDigits>
          <format>$1 $2 $3</format>
        </numberFormat>
        <!-- 2-digit area codes (short format). -->
        <numberFormat pattern=""(\d{2})(\d{2})(\d{3})"" nationalPrefixFormattingRule=""$NP$FG"">
          <leadingDigits>
            4(?:
              [2-46]|
              5[3-5]
            )|
            5|
            6(?:
              [1-689]|
              7[235-7]
            )|
            7(?:
              [0-4]|
              5[2-7]
            )|
            8[1-5]|
            (?:
              60|
              86
            )[23]
          </leadingDigits>
          <format>$1 $2 $3</format>
        </numberFormat>
        <!-- 1-digit area codes. -->
        <numberFormat pattern=""(\d)(\d{3})(\d{3,4})"" nationalPrefixFormattingRule=""$NP$FG"">
          <leadingDigits>
            [12]|
            452|
            678|
            86
          </leadingDigits>
          <leadingDigits>
            [12]|
            452|
            6788|
            86
          </leadingDigits>
          <format>$1 $2 $3</format>
        </numberFormat>
        <!-- 2-digit area codes. -->
        <numberFormat pattern=""(\d{2})(\d{3})(\d{3,4})"" nationalPrefixFormattingRule=""$NP$FG"">
          <leadingDigits>
            [4-7]|
            8[1-35]
          </leadingDigits>
          <format>$1 $2 $3</format>
        </numberFormat>
        <numberFormat pattern=""(\d)(\d{3})(\d{4,6})"" nationalPrefixFormattingRule=""$NP$FG"">
          <leadingDigits>
            9(?:
              2[0-4]|
              [35-9]|
              4[137-9]
            )
";
   "          </leadingDigits>
          <format>$1 $2 $3</format>
        </numberFormat>
        <!-- 1-digit area codes (long format). -->
        <numberFormat pattern=""(\d)(\d{4})(\d{4})"" nationalPrefixFormattingRule=""$NP$FG"">
          <leadingDigits>2</leadingDigits>
          <format>$1 $2 $3</format>
        </numberFormat>
        <!-- Toll-free, see: http://mpt.com.mm/en/first-toll-free-call-service-myanmar-mpt/ -->
        <numberFormat pattern=""(\d{3})(\d{3})(\d{4})"" nationalPrefixFormattingRule=""$NP$FG"">
          <leadingDigits>8</leadingDigits>
          <format>$1 $2 $3</format>
        </numberFormat>
        <!-- Following majority of numbers found online. -->
        <numberFormat pattern=""(\d)(\d{3})(\d{3})(\d{3})"" nationalPrefixFormattingRule=""$NP$FG"">
          <leadingDigits>92</leadingDigits>
          <format>$1 $2 $3 $4</format>
        </numberFormat>
        <numberFormat pattern=""(\d)(\d{5})(\d{4})"" nationalPrefixFormattingRule=""$NP$FG"">
          <leadingDigits>9</leadingDigits>
          <format>$1 $2 $3</format>
        </numberFormat>
      </availableFormats>
      <generalDesc>
        <nationalNumberPattern>
          1\d{5,7}|
          95\d{6}|
          (?:
            [4-7]|
            9[0-46-9]
          )\d{6,8}|
          (?:
            2|
            8\d
          )\d{5,8}
        </nationalNumberPattern>
      </generalDesc>
      <fixedLine>
        <possibleLengths national=""[6-9]"" localOnly=""5""/>
        <exampleNumber>1234567</exampleNumber>
        <nationalNumberPattern>
          (?:
            1(?:
              (?:
                12|
                [28]\d|
                3[56]|
                7[3-6]|
                9[0-6]
              )\d|
              4(?:
                2[29]|
                7[0-2]|
                83
              )|
              6
            )|
            2(?:
              2(?:
                00|
                8[34]
              )|
              4(?:
                0\d|
                22|
";
   "                7[0-2]|
                83
              )|
              51\d\d
            )|
            4(?:
              2(?:
                2\d\d|
                48[013]
              )|
              3(?:
                20\d|
                4(?:
                  70|
                  83
                )|
                56
              )|
              420\d|
              5(?:
                2\d|
                470
              )
            )|
            6(?:
              0(?:
                [23]|
                88\d
              )|
              (?:
                124|
                [56]2\d
              )\d|
              2472|
              3(?:
                20\d|
                470
              )|
              4(?:
                2[04]\d|
                472
              )|
              7(?:
                3\d\d|
                4[67]0|
                8(?:
                  [01459]\d|
                  8
                )
              )
            )
          )\d{4}|
          5(?:
            2(?:
              2\d{5,6}|
              47[02]\d{4}
            )|
            (?:
              3472|
              4(?:
                2(?:
                  1|
                  86
                )|
                470
              )|
              522\d|
              6(?:
                20\d|
                483
              )|
              7(?:
                20\d|
                48[01]
              )|
              8(?:
                20\d|
                47[02]
              )|
              9(?:
                20\d|
                470
              )
            )\d{4}
          )|
          7(?:
            (?:
              0470|
              4(?:
                25\d|
                470
              )|
              5(?:
                202|
                470|
                96\d
              )
            )\d{4}|
            1(?:
              20\d{4,5}|
              4(?:
                70|
                83
";
   "              )\d{4}
            )
          )|
          8(?:
            1(?:
              2\d{5,6}|
              4(?:
                10|
                7[01]\d
              )\d{3}
            )|
            2(?:
              2\d{5,6}|
              (?:
                320|
                490\d
              )\d{3}
            )|
            (?:
              3(?:
                2\d\d|
                470
              )|
              4[24-7]|
              5(?:
                (?:
                  2\d|
                  51
                )\d|
                4(?:
                  [1-35-9]\d|
                  4[0-57-9]
                )
              )|
              6[23]
            )\d{4}
          )|
          (?:
            1[2-6]\d|
            4(?:
              2[24-8]|
              3[2-7]|
              [46][2-6]|
              5[3-5]
            )|
            5(?:
              [27][2-8]|
              3[2-68]|
              4[24-8]|
              5[23]|
              6[2-4]|
              8[24-7]|
              9[2-7]
            )|
            6(?:
              [19]20|
              42[03-6]|
              (?:
                52|
                7[45]
              )\d
            )|
            7(?:
              [04][24-8]|
              [15][2-7]|
              22|
              3[2-4]
            )|
            8(?:
              1[2-689]|
              2[2-8]|
              (?:
                [35]2|
                64
              )\d
            )
          )\d{4}|
          25\d{5,6}|
          (?:
            2[2-9]|
            6(?:
              1[2356]|
              [24][2-6]|
              3[24-6]|
              5[2-4]|
              6[2-8]|
              7[235-7]|
              8[245]|
              9[24]
            )|
            8(?:
              3[24]|
              5[245]
            )
          )\d{4}
        </nationalNumberPattern>
      </fixedLine>
      <!-- Added 99[089] (8 digits), 961 (9 digits), 996 and 997 (10 digits) fr";
   "om bug
";
   "           reports/numbers found online. -->
      <mobile>
        <possibleLengths national=""[7-10]""/>
        <exampleNumber>92123456</exampleNumber>
        <nationalNumberPattern>
          (?:
            17[01]|
            9(?:
              2(?:
                [0-4]|
                [56]\d\d
              )|
              (?:
                3(?:
                  [0-36]|
                  4\d
                )|
                (?:
                  6\d|
                  8[89]|
                  9[4-8]
                )\d|
                7(?:
                  3|
                  40|
                  [5-9]\d
                )
              )\d|
              4(?:
                (?:
                  [0245]\d|
                  [1379]
                )\d|
                88
              )|
              5[0-6]
            )\d
          )\d{4}|
          9[69]1\d{6}|
          9(?:
            [68]\d|
            9[089]
          )\d{5}
        </nationalNumberPattern>
      </mobile>
      <tollFree>
        <possibleLengths national=""10""/>
        <exampleNumber>8008001234</exampleNumber>
        <nationalNumberPattern>
          80080(?:
            0[1-9]|
            2\d
          )\d{3}
        </nationalNumberPattern>
      </tollFree>
      <voip>
        <possibleLengths national=""8""/>
        <exampleNumber>13331234</exampleNumber>
        <nationalNumberPattern>1333\d{4}</nationalNumberPattern>
      </voip>
    </territory>"];
  ["

    <!-- Mongolia (MN) -->
    <!-- http://www.itu.int/oth/T020200008E/en -->
    <!-- https://crc.gov.mn/articles/slug11334/en -->
    <territory id=""MN"" countryCode=""976"" internationalPrefix=""001"" nationalPrefix=""0"">
      <availableFormats>
        <!-- For fixed-line single digit area code numbers. We have only ""1"" as single digit
             area code until now. Grouping access code and area code, this is why first two
             digits are grouped. -->
        <numberFormat pattern=""(\d{2})(\d{2})(\d{4})"" nationalPrefixFormattingRule=""$NP$FG"">
          <leadingDigits>
            11|
            2[16]
          </leadingDigits>
          <format>$1 $2 $3</format>
        </numberFormat>
        <!-- Format for 5X wireless lo";
   "cal loop numbers (that are supported in fixed-line)
             which do not need national prefix as per online results. -->
        <numberFormat pattern=""(\d{4})(\d{4})"">
          <leadingDigits>[5-9]</leadingDigits>
          <format>$1 $2</format>
        </numberFormat>
        <!-- For fixed-line two digit area code numbers. -->
        <numberFormat pattern=""(\d{3})(\d{5,6})"" nationalPrefixFormattingRule=""$NP$FG"">
          <leadingDigits>[12]2[1-3]</leadingDigits>
          <format>$1 $2</format>
        </numberFormat>
        <!-- For fixed-line three digit area code numbers. -->
        <numberFormat pattern=""(\d{4})(\d{5,6})"" nationalPrefixFormattingRule=""$NP$FG"">
          <leadingDigits>
            [12](?:
              27|
              3[2-8]|
              4[2-68]|
              5[1-4689]
            )
          </leadingDigits>
          <leadingDigits>
            [12](?:
              27|
              3[2-8]|
              4[2-68]|
              5[1-4689]
            )[0-3]
          </leadingDigits>
          <format>$1 $2</format>
        </numberFormat>
        <!-- For fixed-line four digit area code numbers. -->
        <numberFormat pattern=""(\d{5})(\d{4,5})"" nationalPrefixFormattingRule=""$NP$FG"">
          <leadingDigits>[12]</leadingDigits>
";
   "          <format>$1 $2</format>
        </numberFormat>
      </availableFormats>
      <generalDesc>
        <nationalNumberPattern>
          [12]\d{7,9}|
          [5-9]\d{7}
        </nationalNumberPattern>
      </generalDesc>
      <!-- Note the leading digit is the access code: 1 is used by Mongolia Telecom subscribers
           and 2 is used by Mongolian Railway subscribers. The area code then follows the access
           code, and could be 1 to 4 digits long. We also cover wireless lo";
   "cal loop numbers here
           as well, even though we are not certain whether they are in fact fixed or mobile in
           this country. 5-digit subscriber numbers for 4-digit area codes have been added due to
           online numbers being found. -->
      <fixedLine>
        <possibleLengths national=""[8-10]"" localOnly=""[4-6]""/>
        <exampleNumber>53123456</exampleNumber>
        <nationalNumberPattern>
          [12](?:
            2[1-3]|
            (?:
              3[2-8]|
              4[2-68]|
              5[1-4689]
            )\d
          )\d{5,6}|
          7(?:
            0(?:
              [0-5]\d|
              7[078]|
              80
            )|
            128
          )\d{4}|
          [12]27\d{6}|
          (?:
            11|
            2[16]|
            5[368]
          )\d{6}
        </nationalNumberPattern>
      </fixedLine>
      <mobile>
        <possibleLengths national=""8""/>
        <exampleNumber>88123456</exampleNumber>
        <nationalNumberPattern>
          (?:
            87[01]|
            92[0139]
          )\d{5}|
          (?:
            5[05]|
            6[069]|
            7[28]|
            8[0135689]|
            9[013-9]
          )\d{6}
        </nationalNumberPattern>
      </mobile>
      <!-- No tollFree or premiumRate information can be found. -->
      <!-- According to the document this could be stricter, but there are counter examples
           online. -->
      <voip>
        <possibleLengths national=""8""/>
";
   "        <exampleNumber>75123456</exampleNumber>
        <nationalNumberPattern>
          712[0-79]\d{4}|
          7(?:
            1[013-9]|
            [5-79]\d
          )\d{5}
        </nationalNumberPattern>
      </voip>
    </territory>"];
  ["

    <!-- Macao (MO) -->
    <!-- No tollFree or premiumRate information can be found. -->
    <!-- http://www.itu.int/oth/T020200007E/en -->
    <!-- http://www.dsrt.gov.mo/web/en/generalinfo/allocatednum -->
    <territory id=""MO"" countryCode=""853"" internationalPrefix=""00"">
      <availableFormats>
        <numberFormat pattern=""(\d{4})(\d{3})"">
          <leadingDigits>0</leadingDigits>
          <format>$1 $2</format>
        </numberFormat>
        <numberFormat pattern=""(\d{4})(\d{4})"">
          <leadingDigits>[268]</leadingDigits>
          <format>$1 $2</format>
        </numberFormat>
      </availableFormats>
      <generalDesc>
        <nationalNumberPattern>
          0800\d{3}|
          (?:
            28|
            [68]\d
          )\d{6}
        </nationalNumberPattern>
      </generalDesc>
      <!-- Added support to specific 811 sub range(3 digit granularity) based on info in
           telecommunications.ctt.gov.mo. Other ranges are fr";
   "om ITU doc. -->
      <fixedLine>
        <possibleLengths national=""8""/>
        <exampleNumber>28212345</exampleNumber>
        <nationalNumberPattern>
          (?:
            28[2-9]|
            8(?:
              11|
              [2-57-9]\d
            )
          )\d{5}
        </nationalNumberPattern>
      </fixedLine>
      <mobile>
        <possibleLengths national=""8""/>
        <exampleNumber>66123456</exampleNumber>
        <nationalNumberPattern>
          6800[0-79]\d{3}|
          6(?:
            [235]\d\d|
            6(?:
              0[0-5]|
              [1-9]\d
            )|
            8(?:
              0[1-9]|
              [14-8]\d|
              2[5-9]|
              [39][0-4]
            )
          )\d{4}
        </nationalNumberPattern>
      </mobile>
      <tollFree>
        <possibleLengths national=""7""/>
        <exampleNumber>0800501</exampleNumber>
        <nationalNumberPattern>0800\d{3}</nationalNumberPattern>
      </tollFree>
    </territory>"];
  ["

    <!-- Northern Mariana Islands (MP) -->
    <!-- Calling code and formatting shared with 'US' -->
    <!-- http://www.itu.int/oth/T02020000EE/en -->
    <!-- http://www.cnmiphonebook.com/ -->
    <territory id=""MP"" countryCode=""1"" leadingDigits=""670"" internationalPrefix=""011""
               nationalPrefix=""1"" nationalPrefixForParsing=""([2-9]\d{6})$|1""
               nationalPrefixTransformRule=""670$1"">
      <generalDesc>
        <nationalNumberPattern>
          [58]\d{9}|
          (?:
            67|
            90
          )0\d{7}
        </nationalNumberPattern>
      </generalDesc>
      <!-- Extra exchange codes 232, 289, 355, 472, 633, 637, 646, 647, 649, 653, 687, 734 and 828
           were seen in the white and yellow pages, but no numbers with these exchange codes have
           proved to be diallable so we exclude them for now. 783 prefix is supported based on
           user report. -->
      <fixedLine>
        <possibleLengths national=""10"" localOnly=""7""/>
        <exampleNumber>6702345678</exampleNumber>
        <nationalNumberPattern>
          670(?:
            2(?:
              3[3-7]|
              56|
              8[4-8]
            )|
            32[1-38]|
            4(?:
              33|
              8[348]
            )|
            5(?:
              32|
              55|
              88
            )|
            6(?:
              64|
              70|
              82
            )|
            78[3589]|
            8[3-9]8|
            989
          )\d{4}
        </nationalNumberPattern>
      </fixedLine>
      <mobile>
        <possibleLengths national=""10"" localOnly=""7""/>
        <exampleNumber>6702345678</exampleNumber>
        <nationalNumberPattern>
          670(?:
            2(?:
              3[3-7]|
              56|
              8[4-8]
            )|
            32[1-38]|
            4(?:
              33|
              8[348]
            )|
            5(?:
              32|
              55|
              88
";
   "            )|
            6(?:
              64|
              70|
              82
            )|
            78[3589]|
            8[3-9]8|
            989
          )\d{4}
        </nationalNumberPattern>
      </mobile>
      <tollFree>
        <possibleLengths national=""10""/>
        <exampleNumber>8002123456</exampleNumber>
        <nationalNumberPattern>
          8(?:
            00|
            33|
            44|
            55|
            66|
            77|
            88
          )[2-9]\d{6}
        </nationalNumberPattern>
      </tollFree>
      <premiumRate>
        <possibleLengths national=""10""/>
        <exampleNumber>9002123456</exampleNumber>
        <nationalNumberPattern>900[2-9]\d{6}</nationalNumberPattern>
      </premiumRate>
      <!-- https://www.nationalnanpa.com/number_resource_info/5XX_codes.html -->
      <personalNumber>
        <possibleLengths national=""10""/>
        <exampleNumber>5002345678</exampleNumber>
        <nationalNumberPattern>
          52(?:
            3(?:
              [2-46-9][02-9]\d|
              5(?:
                [02-46-9]\d|
                5[0-46-9]
              )
            )|
            4(?:
              [2-478][02-9]\d|
              5(?:
                [034]\d|
                2[024-9]|
                5[0-46-9]
              )|
              6(?:
                0[1-9]|
                [2-9]\d
              )|
              9(?:
                [05-9]\d|
                2[0-5]|
                49
              )
            )
          )\d{4}|
          52[34][2-9]1[02-9]\d{4}|
          5(?:
            00|
            2[125-9]|
            3[23]|
            44|
            66|
            77|
            88
          )[2-9]\d{6}
        </nationalNumberPattern>
      </personalNumber>
    </territory>"];
  ["

    <!-- Martinique (MQ) -->
    <!-- The 876 prefix is mentioned in the plan, but the plan is fr";
   "om 2006 and in France VOIP
         numbers were changed fr";
   "om 087 to the 09 prefix in 2009. It is likely this occurred here
         too. -->
    <!-- http://www.itu.int/oth/T0202000086/en -->
    <!-- http://www.arcep.fr/index.php?id=2137&bloc=0596&CMD=RESULTS_NUMEROTATION -->
    <territory id=""MQ"" countryCode=""596"" internationalPrefix=""00"" nationalPrefix=""0""
               mobileNumberPortableRegion=""true"">
      <availableFormats>
        <numberFormat pattern=""(\d{3})(\d{2})(\d{2})(\d{2})"" nationalPrefixFormattingRule=""$NP$FG"">
          <leadingDigits>
            [5-79]|
            8(?:
              0[6-9]|
              [36]
            )
          </leadingDigits>
          <format>$1 $2 $3 $4</format>
        </numberFormat>
        <numberFormat pattern=""(\d{3})(\d{2})(\d{2})(\d{2})"" nationalPrefixFormattingRule=""$NP$FG"">
          <leadingDigits>8</leadingDigits>
          <format>$1 $2 $3 $4</format>
        </numberFormat>
      </availableFormats>
      <generalDesc>
        <nationalNumberPattern>
          7091\d{5}|
          (?:
            [56]9|
            [89]\d
          )\d{7}
        </nationalNumberPattern>
      </generalDesc>
      <fixedLine>
        <possibleLengths national=""9""/>
        <exampleNumber>596301234</exampleNumber>
        <nationalNumberPattern>
          (?:
            59(?:
              6(?:
                [03-7]\d|
                1[05]|
                2[7-9]|
                8[0-39]|
                9[04-9]
              )|
              89\d
            )|
            80[6-9]\d\d|
            9(?:
              477[6-9]|
              767[4589]
            )
          )\d{4}
        </nationalNumberPattern>
      </fixedLine>
      <!-- Ranges are updated based on below official page. Search using prefix 0696X. Ex: 06965
           http://www.arcep.fr/index.php?id=2137&amp;bloc=0596&amp;CMD=RESULTS_NUMEROTATION -->
";
   "      <mobile>
        <possibleLengths national=""9""/>
        <exampleNumber>696201234</exampleNumber>
        <nationalNumberPattern>
          (?:
            69[67]\d\d|
            7091[0-3]
          )\d{4}
        </nationalNumberPattern>
      </mobile>
      <!-- As per ARCEP, mainland France and overseas territories use 0800 to 0805 as Toll-free
           numbers. -->
      <tollFree>
        <possibleLengths national=""9""/>
        <exampleNumber>800012345</exampleNumber>
        <nationalNumberPattern>80[0-5]\d{6}</nationalNumberPattern>
      </tollFree>
      <premiumRate>
        <possibleLengths national=""9""/>
        <exampleNumber>810123456</exampleNumber>
        <nationalNumberPattern>8[129]\d{7}</nationalNumberPattern>
      </premiumRate>
      <voip>
        <possibleLengths national=""9""/>
        <exampleNumber>976612345</exampleNumber>
        <nationalNumberPattern>
          9(?:
            397[0-3]|
            477[0-5]|
            76(?:
              6\d|
              7[0-367]
            )
          )\d{4}
        </nationalNumberPattern>
      </voip>
    </territory>"];
  ["

    <!-- Mauritania (MR) -->
    <!-- http://www.itu.int/oth/T0202000087/en -->
    <!-- http://are.mr/pdfs/pnn2010.pdf -->
    <territory id=""MR"" countryCode=""222"" internationalPrefix=""00"">
      <availableFormats>
        <numberFormat pattern=""(\d{2})(\d{2})(\d{2})(\d{2})"">
          <leadingDigits>[2-48]</leadingDigits>
          <format>$1 $2 $3 $4</format>
        </numberFormat>
      </availableFormats>
      <generalDesc>
        <nationalNumberPattern>
          (?:
            [2-4]\d\d|
            800
          )\d{5}
        </nationalNumberPattern>
      </generalDesc>
      <fixedLine>
        <possibleLengths national=""8""/>
        <exampleNumber>35123456</exampleNumber>
        <nationalNumberPattern>
          (?:
            25[08]|
            35\d|
            45[1-7]
          )\d{5}
        </nationalNumberPattern>
      </fixedLine>
      <!-- Added ""49\d"" in response to https://github.com/google/libphonenumber/issues/529
           which might be overly permissive, but we don't have an official documentation for this
           and only a small number of numbers were found online. At least 492 and 495 are valid. -->
      <mobile>
        <possibleLengths national=""8""/>
        <exampleNumber>22123456</exampleNumber>
        <nationalNumberPattern>[2-4][0-46-9]\d{6}</nationalNumberPattern>
      </mobile>
      <tollFree>
        <possibleLengths national=""8""/>
        <exampleNumber>80012345</exampleNumber>
        <nationalNumberPattern>800\d{5}</nationalNumberPattern>
      </tollFree>
    </territory>"];
  ["

    <!-- Montserrat (MS) -->
    <!-- Calling code and formatting shared with 'US' -->
    <!-- http://www.itu.int/oth/T020200008F/en -->
    <territory id=""MS"" countryCode=""1"" leadingDigits=""664"" internationalPrefix=""011""
               nationalPrefix=""1"" nationalPrefixForParsing=""([34]\d{6})$|1""
               nationalPrefixTransformRule=""664$1"" mobileNumberPortableRegion=""true"">
      <generalDesc>
        <nationalNumberPattern>
          (?:
            [58]\d\d|
            664|
            900
          )\d{7}
        </nationalNumberPattern>
      </generalDesc>
      <fixedLine>
        <possibleLengths national=""10"" localOnly=""7""/>
        <exampleNumber>6644912345</exampleNumber>
        <nationalNumberPattern>
          6644(?:
            1[0-3]|
            91
          )\d{4}
        </nationalNumberPattern>
      </fixedLine>
      <mobile>
        <possibleLengths national=""10"" localOnly=""7""/>
        <exampleNumber>6644923456</exampleNumber>
        <nationalNumberPattern>
          664(?:
            3(?:
              49|
              9[1-6]
            )|
            49[2-6]
          )\d{4}
        </nationalNumberPattern>
      </mobile>
      <tollFree>
        <possibleLengths national=""10""/>
        <exampleNumber>8002123456</exampleNumber>
        <nationalNumberPattern>
          8(?:
            00|
            33|
            44|
            55|
            66|
            77|
            88
          )[2-9]\d{6}
        </nationalNumberPattern>
      </tollFree>
      <premiumRate>
        <possibleLengths national=""10""/>
        <exampleNumber>9002123456</exampleNumber>
        <nationalNumberPattern>900[2-9]\d{6}</nationalNumberPattern>
      </premiumRate>
      <!-- https://www.nationalnanpa.com/number_resource_info/5XX_codes.html -->
      <personalNumber>
        <possibleLengths national=""10""/>
        <exampleNumber>5002345678</exampleNumber>
        <nationalNumberPattern>
          52(?:
            3(?:
              [2-46-9][02-9]\d|
";
   "              5(?:
                [02-46-9]\d|
                5[0-46-9]
              )
            )|
            4(?:
              [2-478][02-9]\d|
              5(?:
                [034]\d|
                2[024-9]|
                5[0-46-9]
              )|
              6(?:
                0[1-9]|
                [2-9]\d
              )|
              9(?:
                [05-9]\d|
                2[0-5]|
                49
              )
            )
          )\d{4}|
          52[34][2-9]1[02-9]\d{4}|
          5(?:
            00|
            2[125-9]|
            3[23]|
            44|
            66|
            77|
            88
          )[2-9]\d{6}
        </nationalNumberPattern>
      </personalNumber>
    </territory>"];
  ["

    <!-- Malta (MT) -->
    <!-- Numbering link in the LHS menu - has more up-to-date allocations -->
    <!-- http://www.itu.int/oth/T0202000084/en -->
    <!-- http://www.mca.org.mt/regulatory/numbering/numbering-plans -->
    <territory id=""MT"" countryCode=""356"" internationalPrefix=""00"" mobileNumberPortableRegion=""true"">
      <availableFormats>
        <numberFormat pattern=""(\d{4})(\d{4})"">
          <leadingDigits>[2357-9]</leadingDigits>
          <format>$1 $2</format>
        </numberFormat>
      </availableFormats>
      <generalDesc>
        <nationalNumberPattern>
          3550\d{4}|
          (?:
            [2579]\d\d|
            800
          )\d{5}
        </nationalNumberPattern>
      </generalDesc>
      <fixedLine>
        <possibleLengths national=""8""/>
        <exampleNumber>21001234</exampleNumber>
        <nationalNumberPattern>
          20(?:
            3[1-4]|
            6[059]
          )\d{4}|
          2(?:
            0[19]|
            [1-357]\d|
            60
          )\d{5}
        </nationalNumberPattern>
      </fixedLine>
      <mobile>
        <possibleLengths national=""8""/>
        <exampleNumber>96961234</exampleNumber>
        <nationalNumberPattern>
          (?:
            7(?:
              210|
              [79]\d\d
            )|
            9(?:
              [29]\d\d|
              69[67]|
              8(?:
                1[1-3]|
                89|
                97
              )
            )
          )\d{4}
        </nationalNumberPattern>
      </mobile>
      <pager>
        <possibleLengths national=""8""/>
        <exampleNumber>71171234</exampleNumber>
        <nationalNumberPattern>7117\d{4}</nationalNumberPattern>
      </pager>
      <tollFree>
        <possibleLengths national=""8""/>
        <exampleNumber>80071234</exampleNumber>
        <nationalNumberPattern>
          800(?:
            02|
            [3467]\d
          )\d{3}
        </nationalNumberPattern>
      </tollFree>
      <premiumRate>
";
   "        <possibleLengths national=""8""/>
        <exampleNumber>50037123</exampleNumber>
        <nationalNumberPattern>
          5(?:
            0(?:
              0(?:
                37|
                43
              )|
              (?:
                6\d|
                70|
                9[0168]
              )\d
            )|
            [12]\d0[1-5]
          )\d{3}
        </nationalNumberPattern>
      </premiumRate>
      <!-- In the plan as Non-PATS ECS. -->
      <voip>
        <possibleLengths national=""8""/>
        <exampleNumber>35501234</exampleNumber>
        <nationalNumberPattern>3550\d{4}</nationalNumberPattern>
      </voip>
      <!-- Using this for governmental numbers. -->
      <uan>
        <possibleLengths national=""8""/>
        <exampleNumber>50112345</exampleNumber>
        <nationalNumberPattern>501\d{5}</nationalNumberPattern>
      </uan>
    </territory>"];
  ["

    <!-- Mauritius (MU) -->
    <!-- Preferred international prefix is expected to standardize on just '00' -->
    <!-- https://www.icta.mu/telecom-numbering/ -->
    <territory id=""MU"" countryCode=""230"" preferredInternationalPrefix=""020""
               internationalPrefix=""0(?:0|[24-7]0|3[03])"">
      <availableFormats>
        <numberFormat pattern=""(\d{3})(\d{4})"">
          <leadingDigits>
            [2-46]|
            8[013]
          </leadingDigits>
          <format>$1 $2</format>
        </numberFormat>
        <numberFormat pattern=""(\d{4})(\d{4})"">
          <leadingDigits>[57]</leadingDigits>
          <format>$1 $2</format>
        </numberFormat>
        <numberFormat pattern=""(\d{5})(\d{5})"">
          <leadingDigits>8</leadingDigits>
          <format>$1 $2</format>
        </numberFormat>
      </availableFormats>
      <generalDesc>
        <nationalNumberPattern>
          (?:
            [57]|
            8\d\d
          )\d{7}|
          [2-468]\d{6}
        </nationalNumberPattern>
      </generalDesc>
      <!-- See also: http://www.wtng.info/wtng-230-mu.html for additional detail. Prefix 267 is
           added based on user report. -->
      <fixedLine>
        <possibleLengths national=""7,8""/>
        <exampleNumber>54480123</exampleNumber>
        <nationalNumberPattern>
          (?:
            2(?:
              [0346-8]\d|
              1[0-8]
            )|
            4(?:
              [013568]\d|
              2[0-24-8]|
              71|
              90
            )|
            54(?:
              [3-5]\d|
              71
            )|
            6\d\d|
            8(?:
              14|
              3[129]
            )
          )\d{4}
        </nationalNumberPattern>
      </fixedLine>
      <mobile>
        <possibleLengths national=""8""/>
        <exampleNumber>52512345</exampleNumber>
        <nationalNumberPattern>
          5(?:
            4(?:
              2[1-389]|
              7[1-9]
            )|
            87[15-8]
";
   "          )\d{4}|
          (?:
            5(?:
              2[5-9]|
              4[3-689]|
              [57]\d|
              8[0-689]|
              9[0-8]
            )|
            7(?:
              0[0-7]|
              3[013]
            )
          )\d{5}
        </nationalNumberPattern>
      </mobile>
      <pager>
        <possibleLengths national=""7""/>
        <exampleNumber>2190123</exampleNumber>
        <nationalNumberPattern>219\d{4}</nationalNumberPattern>
      </pager>
      <!-- Prefix 802 is added based on user report. -->
      <tollFree>
        <possibleLengths national=""7,10""/>
        <exampleNumber>8001234</exampleNumber>
        <nationalNumberPattern>
          802\d{7}|
          80[0-2]\d{4}
        </nationalNumberPattern>
      </tollFree>
      <premiumRate>
        <possibleLengths national=""7""/>
        <exampleNumber>3012345</exampleNumber>
        <nationalNumberPattern>30\d{5}</nationalNumberPattern>
      </premiumRate>
      <voip>
        <possibleLengths national=""7""/>
        <exampleNumber>3201234</exampleNumber>
        <nationalNumberPattern>
          3(?:
            20|
            9\d
          )\d{4}
        </nationalNumberPattern>
      </voip>
    </territory>"];
  ["

    <!-- Maldives (MV) -->
    <!-- http://www.itu.int/oth/T0202000082/en -->
    <!-- http://www.dhiraagu.com.mv -->
    <territory id=""MV"" countryCode=""960"" preferredInternationalPrefix=""00""
               internationalPrefix=""0(?:0|19)"">
      <availableFormats>
        <numberFormat pattern=""(\d{3})(\d{4})"">
          <leadingDigits>[34679]</leadingDigits>
          <format>$1-$2</format>
        </numberFormat>
        <!-- It's not clear whether 800 and 900 numbers have a leading zero; 900 numbers have been
             described in ITU docs without a leading zero, and Maldives doesn't have a trunk
             prefix. -->
        <numberFormat pattern=""(\d{3})(\d{3})(\d{4})"">
          <leadingDigits>[89]</leadingDigits>
          <format>$1 $2 $3</format>
        </numberFormat>
      </availableFormats>
      <generalDesc>
        <nationalNumberPattern>
          (?:
            800|
            9[0-57-9]\d
          )\d{7}|
          [34679]\d{6}
        </nationalNumberPattern>
      </generalDesc>
      <!-- Prefix 690 is mentioned in old ITU doc dated 2011 however it is not mentioned in
           http://www.cam.gov.mv/ which has newer update 2017. Also no online numbers found, so
           not supporting it. -->
      <fixedLine>
        <possibleLengths national=""7""/>
        <exampleNumber>6701234</exampleNumber>
        <nationalNumberPattern>
          (?:
            3(?:
              0[0-4]|
              3[0-59]
            )|
            6(?:
              [58][024689]|
              6[024-68]|
              7[02468]
            )
          )\d{4}
        </nationalNumberPattern>
      </fixedLine>
      <!-- 46[46] are new prefixes for Dhiraagu and Ooredoo, used currently for SMS-based
           services. -->
      <mobile>
        <possibleLengths national=""7""/>
        <exampleNumber>7712345</exampleNumber>
        <nationalNumberPattern>
          (?:
            46[46]|
            [79]\d\d
          )\d{4}
        </nationalNumberPattern>
";
   "      </mobile>
      <tollFree>
        <possibleLengths national=""10""/>
        <exampleNumber>8001234567</exampleNumber>
        <nationalNumberPattern>800\d{7}</nationalNumberPattern>
      </tollFree>
      <premiumRate>
        <possibleLengths national=""10""/>
        <exampleNumber>9001234567</exampleNumber>
        <nationalNumberPattern>900\d{7}</nationalNumberPattern>
      </premiumRate>
      <!-- 400 and 450 numbers are mentioned in the ITU document as ""Non Geographic Fixed Service""
           and seem to be used by businesses. -->
      <uan>
        <possibleLengths national=""7""/>
        <exampleNumber>4001234</exampleNumber>
        <nationalNumberPattern>
          4(?:
            0[01]|
            50
          )\d{4}
        </nationalNumberPattern>
      </uan>
    </territory>"];
  ["

    <!-- Malawi (MW) -->
    <!-- The plan doesn't state that a national prefix exists, but numbers found on the internet are
         consistent in having one. -->
    <!-- http://www.itu.int/oth/T0202000080/en -->
    <territory id=""MW"" countryCode=""265"" internationalPrefix=""00"" nationalPrefix=""0"">
      <availableFormats>
        <numberFormat pattern=""(\d)(\d{3})(\d{3})"" nationalPrefixFormattingRule=""$NP$FG"">
          <leadingDigits>1[2-9]</leadingDigits>
          <format>$1 $2 $3</format>
        </numberFormat>
        <numberFormat pattern=""(\d{3})(\d{2})(\d{2})(\d{2})"" nationalPrefixFormattingRule=""$NP$FG"">
          <leadingDigits>[1-37-9]</leadingDigits>
          <format>$1 $2 $3 $4</format>
        </numberFormat>
      </availableFormats>
      <generalDesc>
        <nationalNumberPattern>
          (?:
            [1289]\d|
            31|
            77
          )\d{7}|
          1\d{6}
        </nationalNumberPattern>
      </generalDesc>
      <!-- 14 is no longer mentioned in the plan as a prefix, but plenty of online numbers have
           been found so this is being retained for now. It is possible however that these may be
           old-format mobile numbers. -->
      <fixedLine>
        <possibleLengths national=""7""/>
        <exampleNumber>1234567</exampleNumber>
        <nationalNumberPattern>1[2-9]\d{5}</nationalNumberPattern>
      </fixedLine>
      <mobile>
        <possibleLengths national=""9""/>
        <exampleNumber>991234567</exampleNumber>
        <nationalNumberPattern>
          111\d{6}|
          (?:
            2[12]|
            31|
            77|
            [89][89]
          )\d{7}
        </nationalNumberPattern>
      </mobile>
    </territory>"];
  ["

    <!-- Mexico (MX) -->
    <!-- http://www.itu.int/oth/T020200008A/en -->
    <!-- http://en.wikipedia.org/wiki/%2B52 -->
    <!-- http://en.wikipedia.org/wiki/Premium-rate_telephone_number#Mexico -->
    <!-- http://en.wikipedia.org/wiki/Toll-free_telephone_number -->
    <!-- Dialling tokens 01, 02, 044, 045 and 1 are removed as they are no longer valid since
         August 2019. -->
    <territory id=""MX"" countryCode=""52"" preferredInternationalPrefix=""00""
               internationalPrefix=""0[09]"" mobileNumberPortableRegion=""true"">
      <availableFormats>
        <!-- 5-digit shortcodes (very rare). -->
        <numberFormat pattern=""(\d{5})"">
          <leadingDigits>53</leadingDigits>
          <format>$1</format>
          <intlFormat>NA</intlFormat>
        </numberFormat>
        <!-- Fixed line (2-digit area codes) and Mobile. -->
        <numberFormat pattern=""(\d{2})(\d{4})(\d{4})"">
          <leadingDigits>
            33|
            5[56]|
            81
          </leadingDigits>
          <format>$1 $2 $3</format>
        </numberFormat>
        <!-- Fixed line (3-digit area codes), Mobile and all other non geographic numbers. -->
        <numberFormat pattern=""(\d{3})(\d{3})(\d{4})"">
          <leadingDigits>[2-9]</leadingDigits>
          <format>$1 $2 $3</format>
        </numberFormat>
      </availableFormats>
      <generalDesc>
        <nationalNumberPattern>[2-9]\d{9}</nationalNumberPattern>
      </generalDesc>
      <!-- http://en.wikipedia.org/wiki/Area_codes_in_Mexico_by_code -->
      <!-- Also covering fixed satellite service numbers (prefixes: 200 and 201). -->
      <fixedLine>
        <possibleLengths national=""10"" localOnly=""7,8""/>
        <exampleNumber>2001234567</exampleNumber>
        <nationalNumberPattern>
          (?:
            2(?:
              0[01]|
              2\d|
              3[1-35-8]|
              4[13-9]|
              7[1-689]|
              8[1-578]|
              9[467]
            )|
            3(?:
";
   "              1[1-79]|
              [2458][1-9]|
              3\d|
              7[1-8]|
              9[1-5]
            )|
            4(?:
              1[1-57-9]|
              [267][1-9]|
              3[1-8]|
              [45]\d|
              8[1-35-9]|
              9[2-689]
            )|
            5(?:
              [56]\d|
              88|
              9[1-79]
            )|
            6(?:
              1[2-68]|
              [2-4][1-9]|
              5[1-36-9]|
              6[0-57-9]|
              7[1-7]|
              8[67]|
              9[4-8]
            )|
            7(?:
              [1346][1-9]|
              [27]\d|
              5[13-9]|
              8[1-69]|
              9[17]
            )|
            8(?:
              1\d|
              2[13-689]|
              3[1-6]|
              4[124-6]|
              6[1246-9]|
              7[0-378]|
              9[12479]
            )|
            9(?:
              1[346-9]|
              2[1-4]|
              3[2-46-8]|
              5[1348]|
              [69]\d|
              7[12]|
              8[1-8]
            )
          )\d{7}
        </nationalNumberPattern>
      </fixedLine>
      <!-- Fixed satellite service numbers are not included here, although many other prefixes fr";
   "om
           the fixedLine pattern are. -->
      <mobile>
        <possibleLengths national=""10"" localOnly=""7,8""/>
        <exampleNumber>2221234567</exampleNumber>
        <nationalNumberPattern>
          (?:
            2(?:
              2\d|
              3[1-35-8]|
              4[13-9]|
              7[1-689]|
              8[1-578]|
              9[467]
            )|
            3(?:
              1[1-79]|
              [2458][1-9]|
              3\d|
              7[1-8]|
              9[1-5]
            )|
            4(?:
              1[1-57-9]|
              [267][1-9]|
              3[1-8]|
              [45]\d|
              8[1-35-9]|
              9[2-689]
            )|
            5(?:
";
   "              [56]\d|
              88|
              9[1-79]
            )|
            6(?:
              1[2-68]|
              [2-4][1-9]|
              5[1-36-9]|
              6[0-57-9]|
              7[1-7]|
              8[67]|
              9[4-8]
            )|
            7(?:
              [1346][1-9]|
              [27]\d|
              5[13-9]|
              8[1-69]|
              9[17]
            )|
            8(?:
              1\d|
              2[13-689]|
              3[1-6]|
              4[124-6]|
              6[1246-9]|
              7[0-378]|
              9[12479]
            )|
            9(?:
              1[346-9]|
              2[1-4]|
              3[2-46-8]|
              5[1348]|
              [69]\d|
              7[12]|
              8[1-8]
            )
          )\d{7}
        </nationalNumberPattern>
      </mobile>
      <tollFree>
        <possibleLengths national=""10""/>
        <exampleNumber>8001234567</exampleNumber>
        <nationalNumberPattern>
          8(?:
            00|
            88
          )\d{7}
        </nationalNumberPattern>
      </tollFree>
      <premiumRate>
        <possibleLengths national=""10""/>
        <exampleNumber>9001234567</exampleNumber>
        <nationalNumberPattern>900\d{7}</nationalNumberPattern>
      </premiumRate>
      <sharedCost>
        <possibleLengths national=""10""/>
        <exampleNumber>3001234567</exampleNumber>
        <nationalNumberPattern>300\d{7}</nationalNumberPattern>
      </sharedCost>
      <personalNumber>
        <possibleLengths national=""10""/>
        <exampleNumber>5001234567</exampleNumber>
        <nationalNumberPattern>500\d{7}</nationalNumberPattern>
      </personalNumber>
    </territory>"]].
