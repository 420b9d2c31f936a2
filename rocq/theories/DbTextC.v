(** Generated by tools/gen_text.py: the text of /repo/assets/PhoneNumberMetadata.xml,
    part C of F, cut after every territory. *)
From Verif Require Import Base.
Local Open Scope bstr_scope.

Definition text_c : list (list bstr) :=
 [["

    <!-- United Kingdom (GB) -->
    <!-- Main region for 'GG,IM,JE' -->
    <!-- Note that this excludes Isle of Man, Jersey and Guernsey prefixes for the purposes of
         validation, although the formatting rules are shared. Also numbers are fine-grained where
         needed in order to disambiguate between the 4 regions. -->
    <!-- https://www.ofcom.org.uk/phones-and-broadband/phone-numbers/numbering-data -->
    <!-- http://en.wikipedia.org/wiki/List_of_United_Kingdom_dialling_codes -->
    <!-- http://www.numberingplans.com/?page=dialling&sub=areacodes&ac=GB -->
    <territory id=""GB"" mainCountryForCode=""true"" countryCode=""44"" internationalPrefix=""00""
               nationalPrefix=""0"" nationalPrefixForParsing=""0|180020"" preferredExtnPrefix="" x""
               mobileNumberPortableRegion=""true"">
      <availableFormats>
        <!-- Special case: 800 1111 (UK Child Line). -->
        <numberFormat pattern=""(\d{3})(\d{4})"" nationalPrefixFormattingRule=""$NP$FG"">
          <leadingDigits>800</leadingDigits>
          <leadingDigits>8001</leadingDigits>
          <leadingDigits>80011</leadingDigits>
          <leadingDigits>800111</leadingDigits>
          <leadingDigits>8001111</leadingDigits>
          <format>$1 $2</format>
        </numberFormat>
        <!-- Special case: 845 46 47 (UK NHS Direct). -->
        <numberFormat pattern=""(\d{3})(\d{2})(\d{2})"" nationalPrefixFormattingRule=""$NP$FG"">
          <leadingDigits>845</leadingDigits>
          <leadingDigits>8454</leadingDigits>
          <leadingDigits>84546</leadingDigits>
          <leadingDigits>845464</leadingDigits>
          <format>$1 $2 $3</format>
        </numberFormat>
        <!-- Shorter than normal toll-free numbers (9-digits). -->
        <numberFormat pattern=""(\d{3})(\d{6})"" nationalPrefixFormattingRule=""$NP$FG"">
          <leadingDigits>800</leadingDigits>
          <format>$1 $2</format>
        </numberFormat>
        <!-- 5-digit area codes (9 or 10 digit numbers).
             These area codes are very rare in GB, and are only available in the following places:
";
   "             13873(Langholm), 15242(Hornby), 15394(Hawkshead), 15395(Grange-over-Sands),
             15396(Sedbergh), 16973(Wigton), 16974(Raughton Head), 16977(Brampton),
             17683(Appleby), 17684(Pooley Bridge), 17687(Keswick), 19467(Gosforth). -->
        <numberFormat pattern=""(\d{5})(\d{4,5})"" nationalPrefixFormattingRule=""$NP$FG"">
          <leadingDigits>
            1(?:
              38|
              5[23]|
              69|
              76|
              94
            )
          </leadingDigits>
          <leadingDigits>
            1(?:
              (?:
                38|
                69
              )7|
              5(?:
                24|
                39
              )|
              768|
              946
            )
          </leadingDigits>
          <leadingDigits>
            1(?:
              3873|
              5(?:
                242|
                39[4-6]
              )|
              (?:
                697|
                768
              )[347]|
              9467
            )
          </leadingDigits>
          <format>$1 $2</format>
        </numberFormat>
        <!-- 4-digit area codes (9 or 10 digit numbers). -->
        <numberFormat pattern=""(\d{4})(\d{5,6})"" nationalPrefixFormattingRule=""$NP$FG"">
          <leadingDigits>
            1(?:
              [2-69][02-9]|
              [78]
            )
          </leadingDigits>
          <format>$1 $2</format>
        </numberFormat>
        <!-- 2-digit area codes and other 2-4-4 formats (pager, uan etc.)
             2d, 55, 56, 70 and 76 pager numbers (excludes 7624) with 10 digits. -->
        <numberFormat pattern=""(\d{2})(\d{4})(\d{4})"" nationalPrefixFormattingRule=""$NP$FG"">
          <leadingDigits>
            [25]|
            7(?:
              0|
              6[02-9]
            )
          </leadingDigits>
          <leadingDigits>
            [25]|
            7(?:
              0|
              6(?:
                [03-9]|
                2[356]
";
   "              )
            )
          </leadingDigits>
          <format>$1 $2 $3</format>
        </numberFormat>
        <!-- 7ddd (not 70, 76) with 10 digits. Includes 7624 for IM. -->
        <numberFormat pattern=""(\d{4})(\d{6})"" nationalPrefixFormattingRule=""$NP$FG"">
          <leadingDigits>7</leadingDigits>
          <format>$1 $2</format>
        </numberFormat>
        <!-- 3-digit area codes and other 3-3-4 formats (fixed line, premium rate, toll free etc.)
             For geographic area codes: 11d, 1d1, 3dd, 9dd -->
        <numberFormat pattern=""(\d{3})(\d{3})(\d{4})"" nationalPrefixFormattingRule=""$NP$FG"">
          <leadingDigits>[1389]</leadingDigits>
          <format>$1 $2 $3</format>
        </numberFormat>
      </availableFormats>
      <generalDesc>
        <nationalNumberPattern>
          [1-357-9]\d{9}|
          [18]\d{8}|
          8\d{6}
        </nationalNumberPattern>
      </generalDesc>
      <!-- http://en.wikipedia.org/wiki/List_of_United_Kingdom_dialling_codes -->
      <!-- Pattern matches geographic NSN=10 numbers as follows:
           - area code and lo";
   "cal number first digit for 2+8,
           - area code and lo";
   "cal number first digit for 3+7,
           - area code only for 4+6 (including areas with embedded 5+5).
           Pattern matches geographic NSN=9 numbers as follows:
           - area code and lo";
   "cal number first two digits for 4+5,
           - area code and lo";
   "cal number first three digits for 4+5 special case (01768) 88Ddd,
           - area code and lo";
   "cal number first digit for 5+4 special case (016977) Dddd.
           All patterns exclude ranges used in GG, IM, JE. -->
      <fixedLine>
        <possibleLengths national=""9,10"" localOnly=""[4-8]""/>
        <exampleNumber>1212345678</exampleNumber>
        <nationalNumberPattern>
          (?:
            1(?:
              1(?:
                3(?:
                  [0-58]\d\d|
                  73[0-5]
                )|
                4(?:
                  (?:
";
   "                    [0-5]\d|
                    70
                  )\d|
                  69[7-9]
                )|
                (?:
                  (?:
                    5[0-26-9]|
                    [78][0-49]
                  )\d|
                  6(?:
                    [0-4]\d|
                    5[01]
                  )
                )\d
              )|
              (?:
                2(?:
                  (?:
                    0[024-9]|
                    2[3-9]|
                    3[3-79]|
                    4[1-689]|
                    [58][02-9]|
                    6[0-47-9]|
                    7[013-9]|
                    9\d
                  )\d|
                  1(?:
                    [0-7]\d|
                    8[0-3]
                  )
                )|
                (?:
                  3(?:
                    0\d|
                    1[0-8]|
                    [25][02-9]|
                    3[02-579]|
                    [468][0-46-9]|
                    7[1-35-79]|
                    9[2-578]
                  )|
                  4(?:
                    0[03-9]|
                    [137]\d|
                    [28][02-57-9]|
                    4[02-69]|
                    5[0-8]|
                    [69][0-79]
                  )|
                  5(?:
                    0[1-35-9]|
                    [16]\d|
                    2[024-9]|
                    3[015689]|
                    4[02-9]|
                    5[03-9]|
                    7[0-35-9]|
                    8[0-468]|
                    9[0-57-9]
                  )|
                  6(?:
                    0[034689]|
                    1\d|
                    2[0-35689]|
                    [38][013-9]|
                    4[1-467]|
                    5[0-69]|
                    6[13-9]|
                    7[0-8]|
                    9[0-24578]
                  )|
                  7(?:
                    0[0246-9]|
                    2\d|
";
   "                    3[0236-8]|
                    4[03-9]|
                    5[0-46-9]|
                    6[013-9]|
                    7[0-35-9]|
                    8[024-9]|
                    9[02-9]
                  )|
                  8(?:
                    0[35-9]|
                    2[1-57-9]|
                    3[02-578]|
                    4[0-578]|
                    5[124-9]|
                    6[2-69]|
                    7\d|
                    8[02-9]|
                    9[02569]
                  )|
                  9(?:
                    0[02-589]|
                    [18]\d|
                    2[02-689]|
                    3[1-57-9]|
                    4[2-9]|
                    5[0-579]|
                    6[2-47-9]|
                    7[0-24578]|
                    9[2-57]
                  )
                )\d
              )\d
            )|
            2(?:
              0[013478]|
              3[0189]|
              4[017]|
              8[0-46-9]|
              9[0-2]
            )\d{3}
          )\d{4}|
          1(?:
            2(?:
              0(?:
                46[1-4]|
                87[2-9]
              )|
              545[1-79]|
              76(?:
                2\d|
                3[1-8]|
                6[1-6]
              )|
              9(?:
                7(?:
                  2[0-4]|
                  3[2-5]
                )|
                8(?:
                  2[2-8]|
                  7[0-47-9]|
                  8[3-5]
                )
              )
            )|
            3(?:
              6(?:
                38[2-5]|
                47[23]
              )|
              8(?:
                47[04-9]|
                64[0157-9]
              )
            )|
            4(?:
              044[1-7]|
              20(?:
                2[23]|
                8\d
              )|
              6(?:
                0(?:
                  30|
                  5[2-57]|
                  6[1-8]|
";
   "                  7[2-8]
                )|
                140
              )|
              8(?:
                052|
                87[1-3]
              )
            )|
            5(?:
              2(?:
                4(?:
                  3[2-79]|
                  6\d
                )|
                76\d
              )|
              6(?:
                26[06-9]|
                686
              )
            )|
            6(?:
              06(?:
                4\d|
                7[4-79]
              )|
              295[5-7]|
              35[34]\d|
              47(?:
                24|
                61
              )|
              59(?:
                5[08]|
                6[67]|
                74
              )|
              9(?:
                55[0-4]|
                77[23]
              )
            )|
            7(?:
              26(?:
                6[13-9]|
                7[0-7]
              )|
              (?:
                442|
                688
              )\d|
              50(?:
                2[0-3]|
                [3-68]2|
                76
              )
            )|
            8(?:
              27[56]\d|
              37(?:
                5[2-5]|
                8[239]
              )|
              843[2-58]
            )|
            9(?:
              0(?:
                0(?:
                  6[1-8]|
                  85
                )|
                52\d
              )|
              3583|
              4(?:
                66[1-8]|
                9(?:
                  2[01]|
                  81
                )
              )|
              63(?:
                23|
                3[1-4]
              )|
              9561
            )
          )\d{3}
        </nationalNumberPattern>
      </fixedLine>
      <!-- http://stakeholders.ofcom.org.uk/telecoms/numbering/telephone-no-availability/numbers-administered/
           7100-7599, 7700-7999 with 10 digits; excluding ranges used in GG, IM, JE. -->
";
   "      <mobile>
        <possibleLengths national=""10""/>
        <exampleNumber>7400123456</exampleNumber>
        <nationalNumberPattern>
          7(?:
            457[0-57-9]|
            700[01]|
            911[028]
          )\d{5}|
          7(?:
            [1-3]\d\d|
            4(?:
              [0-46-9]\d|
              5[0-689]
            )|
            5(?:
              0[0-8]|
              [13-9]\d|
              2[0-35-9]
            )|
            7(?:
              0[1-9]|
              [1-7]\d|
              8[02-9]|
              9[0-689]
            )|
            8(?:
              [014-9]\d|
              [23][0-8]
            )|
            9(?:
              [024-9]\d|
              1[02-9]|
              3[0-689]
            )
          )\d{6}
        </nationalNumberPattern>
      </mobile>
      <!-- 76 with 10 digits; excluding ranges used in IM. Prefix 7691 is been supported based on
           user report. -->
      <pager>
        <possibleLengths national=""10""/>
        <exampleNumber>7640123456</exampleNumber>
        <nationalNumberPattern>
          76(?:
            464|
            652
          )\d{5}|
          76(?:
            0[0-28]|
            2[356]|
            34|
            4[01347]|
            5[49]|
            6[0-369]|
            77|
            8[14]|
            9[139]
          )\d{6}
        </nationalNumberPattern>
      </pager>
      <!-- Source for non geographic numbers:
           http://en.wikipedia.org/wiki/Non-geographic_telephone_numbers_in_the_United_Kingdom -->
      <!-- 800 1111 with 7 digits, 800 with 9 or 10 digits, 808 with 10 digits. -->
      <tollFree>
        <possibleLengths national=""7,9,10""/>
        <exampleNumber>8001234567</exampleNumber>
        <nationalNumberPattern>
          80[08]\d{7}|
          800\d{6}|
          8001111
        </nationalNumberPattern>
      </tollFree>
      <!-- Note that only 908, 909, 980-989 are reserved for ""adult services"" while the other
           premium rate ranges are reserved for standard services. Revenue sharing number ranges
";
   "           84X and 87X are supported as premium rate as they incur additional service charge
           (which is usually additional to call charge). -->
      <premiumRate>
        <possibleLengths national=""7,10""/>
        <exampleNumber>9012345678</exampleNumber>
        <nationalNumberPattern>
          (?:
            8(?:
              4[2-5]|
              7[0-3]
            )|
            9(?:
              [01]\d|
              8[2-49]
            )
          )\d{7}|
          845464\d
        </nationalNumberPattern>
      </premiumRate>
      <!-- 70 with 10 digits. -->
      <personalNumber>
        <possibleLengths national=""10""/>
        <exampleNumber>7012345678</exampleNumber>
        <nationalNumberPattern>70\d{8}</nationalNumberPattern>
      </personalNumber>
      <!-- 56 with 10 digits. -->
      <voip>
        <possibleLengths national=""10""/>
        <exampleNumber>5612345678</exampleNumber>
        <nationalNumberPattern>56\d{8}</nationalNumberPattern>
      </voip>
      <!-- 30d, 33d, 34d, 37d, 55 with 10 digits. -->
      <uan>
        <possibleLengths national=""10""/>
        <exampleNumber>5512345678</exampleNumber>
        <nationalNumberPattern>
          (?:
            3[0347]|
            55
          )\d{8}
        </nationalNumberPattern>
      </uan>
    </territory>"];
  ["

    <!-- Grenada (GD) -->
    <!-- Calling code and formatting shared with 'US' -->
    <!-- http://www.itu.int/oth/T0202000057/en -->
    <territory id=""GD"" countryCode=""1"" leadingDigits=""473"" internationalPrefix=""011""
               nationalPrefix=""1"" nationalPrefixForParsing=""([2-9]\d{6})$|1""
               nationalPrefixTransformRule=""473$1"" mobileNumberPortableRegion=""true"">
      <generalDesc>
        <nationalNumberPattern>
          (?:
            473|
            [58]\d\d|
            900
          )\d{7}
        </nationalNumberPattern>
      </generalDesc>
      <fixedLine>
        <possibleLengths national=""10"" localOnly=""7""/>
        <exampleNumber>4732691234</exampleNumber>
        <nationalNumberPattern>
          473(?:
            2(?:
              3[0-2]|
              69
            )|
            3(?:
              2[89]|
              86
            )|
            4(?:
              [06]8|
              3[5-9]|
              4[0-4]|
              5[59]|
              73|
              90
            )|
            63[68]|
            7(?:
              58|
              84
            )|
            800|
            938
          )\d{4}
        </nationalNumberPattern>
      </fixedLine>
      <mobile>
        <possibleLengths national=""10"" localOnly=""7""/>
        <exampleNumber>4734031234</exampleNumber>
        <nationalNumberPattern>
          473(?:
            4(?:
              0[2-79]|
              1[04-9]|
              2[0-5]|
              49|
              5[6-8]
            )|
            5(?:
              2[01]|
              3[3-8]
            )|
            901
          )\d{4}
        </nationalNumberPattern>
      </mobile>
      <tollFree>
        <possibleLengths national=""10""/>
        <exampleNumber>8002123456</exampleNumber>
        <nationalNumberPattern>
          8(?:
            00|
            33|
            44|
            55|
            66|
            77|
            88
          )[2-9]\d{6}
        </nationalNumberPattern>
";
   "      </tollFree>
      <premiumRate>
        <possibleLengths national=""10""/>
        <exampleNumber>9002123456</exampleNumber>
        <nationalNumberPattern>900[2-9]\d{6}</nationalNumberPattern>
      </premiumRate>
      <!-- https://www.nationalnanpa.com/number_resource_info/5XX_codes.html -->
      <personalNumber>
        <possibleLengths national=""10""/>
        <exampleNumber>5002345678</exampleNumber>
        <nationalNumberPattern>
          52(?:
            3(?:
              [2-46-9][02-9]\d|
              5(?:
                [02-46-9]\d|
                5[0-46-9]
              )
            )|
            4(?:
              [2-478][02-9]\d|
              5(?:
                [034]\d|
                2[024-9]|
                5[0-46-9]
              )|
              6(?:
                0[1-9]|
                [2-9]\d
              )|
              9(?:
                [05-9]\d|
                2[0-5]|
                49
              )
            )
          )\d{4}|
          52[34][2-9]1[02-9]\d{4}|
          5(?:
            00|
            2[125-9]|
            3[23]|
            44|
            66|
            77|
            88
          )[2-9]\d{6}
        </nationalNumberPattern>
      </personalNumber>
    </territory>"];
  ["

    <!-- Georgia (GE) -->
    <!-- It seems there may be special 6 digit numbers beginning with 91, but we are not sure, so
         these are omitted for now. -->
    <!-- http://www.itu.int/oth/T0202000050/en -->
    <!-- http://en.wikipedia.org/wiki/Telephone_numbers_in_Georgia_(country) -->
    <territory id=""GE"" countryCode=""995"" internationalPrefix=""00"" nationalPrefix=""0""
               mobileNumberPortableRegion=""true"">
      <availableFormats>
        <numberFormat pattern=""(\d{3})(\d{3})(\d{3})"" nationalPrefixFormattingRule=""$NP$FG"">
          <leadingDigits>70</leadingDigits>
          <format>$1 $2 $3</format>
        </numberFormat>
        <!-- This format is for two digit area code fixed line range of Tblisi(32). -->
        <numberFormat pattern=""(\d{2})(\d{3})(\d{2})(\d{2})"" nationalPrefixFormattingRule=""$NP$FG"">
          <leadingDigits>32</leadingDigits>
          <format>$1 $2 $3 $4</format>
        </numberFormat>
        <numberFormat pattern=""(\d{3})(\d{2})(\d{2})(\d{2})"">
          <leadingDigits>[57]</leadingDigits>
          <format>$1 $2 $3 $4</format>
        </numberFormat>
        <!-- Format isn't very strictly de";
   "fined - the yellow pages omits area code and does 2 2 2
             the communications commission uses 2 3 3. Wikipedia says 3 2 3. Some use 2 6. -->
        <numberFormat pattern=""(\d{3})(\d{2})(\d{2})(\d{2})"" nationalPrefixFormattingRule=""$NP$FG"">
          <leadingDigits>[348]</leadingDigits>
          <format>$1 $2 $3 $4</format>
        </numberFormat>
      </availableFormats>
      <generalDesc>
        <nationalNumberPattern>
          (?:
            [3-57]\d\d|
            800
          )\d{6}
        </nationalNumberPattern>
      </generalDesc>
      <!-- Online numbers mention that this is not internationally diallable. -->
      <noInternationalDialling>
        <possibleLengths national=""9""/>
        <nationalNumberPattern>70[67]\d{6}</nationalNumberPattern>
      </noInternationalDialling>
      <fixedLine>
        <possibleLengths national=""9"" localOnly=""6,7""/>
";
   "        <exampleNumber>322123456</exampleNumber>
        <nationalNumberPattern>
          (?:
            3(?:
              [256]\d|
              4[124-9]|
              7[0-4]
            )|
            4(?:
              1\d|
              2[2-7]|
              3[1-79]|
              4[2-8]|
              7[239]|
              9[1-7]
            )
          )\d{6}
        </nationalNumberPattern>
      </fixedLine>
      <!-- 54444 is the only assigned range we have found, but we support all of 544 to keep the
           regex simple. -->
      <mobile>
        <possibleLengths national=""9""/>
        <exampleNumber>555123456</exampleNumber>
        <nationalNumberPattern>
          5(?:
            (?:
              (?:
                0555|
                1(?:
                  [17]77|
                  555
                )
              )[5-9]|
              757(?:
                7[7-9]|
                8[01]
              )
            )\d|
            22252[0-4]
          )\d\d|
          5(?:
            0(?:
              0(?:
                1[09]|
                70
              )|
              505
            )|
            1(?:
              0[01]0|
              1(?:
                07|
                33|
                51
              )
            )|
            2(?:
              0[02]0|
              2[25]2
            )|
            3(?:
              0[03]0|
              3[35]3
            )|
            (?:
              40[04]|
              900
            )0|
            5222
          )[0-4]\d{3}|
          (?:
            5(?:
              0(?:
                0(?:
                  0\d|
                  1[12]|
                  22|
                  3[0-6]|
                  44|
                  5[05]|
                  77|
                  88|
                  9[09]
                )|
                (?:
                  [14]\d|
                  77
                )\d|
                22[02]
              )|
              1(?:
";
   "                1(?:
                  [03][01]|
                  [124]\d|
                  5[2-6]|
                  7[0-6]
                )|
                4\d\d
              )|
              [23]555|
              4(?:
                4\d\d|
                555
              )|
              5(?:
                [0157-9]\d\d|
                200|
                333|
                4(?:
                  44|
                  55
                )
              )|
              6[89]\d\d|
              7(?:
                (?:
                  [0147-9]\d|
                  22
                )\d|
                5(?:
                  00|
                  [57]5
                )
              )|
              8(?:
                0(?:
                  [018]\d|
                  2[0-4]
                )|
                5(?:
                  55|
                  8[89]
                )|
                8(?:
                  55|
                  88
                )
              )|
              9(?:
                090|
                [1-35-9]\d\d
              )
            )|
            790\d\d
          )\d{4}
        </nationalNumberPattern>
      </mobile>
      <!-- Information fr";
   "om http://www.yell.ge, examples such as Wissol Petroleum Georgia
           hotline. -->
      <tollFree>
        <possibleLengths national=""9""/>
        <exampleNumber>800123456</exampleNumber>
        <nationalNumberPattern>800\d{6}</nationalNumberPattern>
      </tollFree>
      <!-- http://www.mydivert.com/virtual-numbers/995-virtual-number-National.html -->
      <voip>
        <possibleLengths national=""9""/>
        <exampleNumber>706123456</exampleNumber>
        <nationalNumberPattern>70[67]\d{6}</nationalNumberPattern>
      </voip>
    </territory>"];
  ["

    <!-- French Guiana (GF) -->
    <!-- Using a national prefix here as online numbers are formatted with it. -->
    <!-- The 876 prefix is mentioned in the plan, but the plan is fr";
   "om 2006 and in France VOIP
         numbers were changed fr";
   "om 087 to the 09 prefix in 2009. It is likely this occurred here
         too. -->
    <!-- http://www.itu.int/oth/T020200004C/en -->
    <!-- http://www.arcep.fr/index.php?id=2137&bloc=0594&CMD=RESULTS_NUMEROTATION -->
    <!-- http://www.arcep.fr/uploads/tx_gsavis/11-1297.pdf -->
    <!-- https://extranet.arcep.fr/portail/Op%C3%A9rateursCE/Num%C3%A9rotation.aspx -->
    <territory id=""GF"" countryCode=""594"" internationalPrefix=""00"" nationalPrefix=""0""
               mobileNumberPortableRegion=""true"">
      <availableFormats>
        <numberFormat pattern=""(\d{3})(\d{2})(\d{2})(\d{2})"" nationalPrefixFormattingRule=""$NP$FG"">
          <leadingDigits>
            [5-7]|
            80[6-9]|
            9[47]
          </leadingDigits>
          <format>$1 $2 $3 $4</format>
        </numberFormat>
        <numberFormat pattern=""(\d{3})(\d{2})(\d{2})(\d{2})"" nationalPrefixFormattingRule=""$NP$FG"">
          <leadingDigits>[89]</leadingDigits>
          <format>$1 $2 $3 $4</format>
        </numberFormat>
      </availableFormats>
      <generalDesc>
        <nationalNumberPattern>
          (?:
            694\d|
            7093
          )\d{5}|
          (?:
            59|
            [89]\d
          )\d{7}
        </nationalNumberPattern>
      </generalDesc>
      <fixedLine>
        <possibleLengths national=""9""/>
        <exampleNumber>594101234</exampleNumber>
        <nationalNumberPattern>
          (?:
            59(?:
              4(?:
                [02-49]\d|
                1[0-5]|
                5[6-9]|
                6[0-3]|
                80
              )|
              88\d
            )|
            80[6-9]\d\d
          )\d{4}
        </nationalNumberPattern>
      </fixedLine>
      <!-- As per Wikipedia Guyane Téléphone Mobile operator is no longer functioning. However we
";
   "           support these ranges as they are still mentioned in ARCEP numbering plan doc. -->
      <mobile>
        <possibleLengths national=""9""/>
        <exampleNumber>694201234</exampleNumber>
        <nationalNumberPattern>
          (?:
            694(?:
              [0-249]\d|
              3[0-8]
            )|
            7093[0-3]
          )\d{4}
        </nationalNumberPattern>
      </mobile>
      <!-- As per ARCEP, mainland France and overseas territories use 0800 to 0805 as
           Toll-free numbers. -->
      <tollFree>
        <possibleLengths national=""9""/>
        <exampleNumber>800012345</exampleNumber>
        <nationalNumberPattern>80[0-5]\d{6}</nationalNumberPattern>
      </tollFree>
      <premiumRate>
        <possibleLengths national=""9""/>
        <exampleNumber>890123456</exampleNumber>
        <nationalNumberPattern>8[129]\d{7}</nationalNumberPattern>
      </premiumRate>
      <voip>
        <possibleLengths national=""9""/>
        <exampleNumber>976012345</exampleNumber>
        <nationalNumberPattern>
          9(?:
            (?:
              396|
              76\d
            )\d|
            476[0-6]
          )\d{4}
        </nationalNumberPattern>
      </voip>
    </territory>"];
  ["

    <!-- Guernsey (GG) -->
    <!-- Calling code and formatting shared with 'GB' -->
    <!-- Note that the numbers are fine-grained where needed in order to disambiguate between the
         4 regions i.e UK, Isle of Man, Jersey and Guernsey. -->
    <!-- http://static.ofcom.org.uk/static/numbering/ -->
    <!-- http://en.wikipedia.org/wiki/Telephone_numbers_in_the_United_Kingdom -->
    <territory id=""GG"" countryCode=""44"" internationalPrefix=""00"" nationalPrefix=""0""
               nationalPrefixForParsing=""([25-9]\d{5})$|0|180020""
               nationalPrefixTransformRule=""1481$1"">
      <generalDesc>
        <nationalNumberPattern>
          (?:
            1481|
            [357-9]\d{3}
          )\d{6}|
          8\d{6}(?:
            \d{2}
          )?
        </nationalNumberPattern>
      </generalDesc>
      <!-- Specific to GG. -->
      <!-- 1481 with 10 digits. -->
      <fixedLine>
        <possibleLengths national=""10"" localOnly=""6""/>
        <exampleNumber>1481256789</exampleNumber>
        <nationalNumberPattern>1481[25-9]\d{5}</nationalNumberPattern>
      </fixedLine>
      <mobile>
        <possibleLengths national=""10""/>
        <exampleNumber>7781123456</exampleNumber>
        <nationalNumberPattern>
          7(?:
            (?:
              781|
              839
            )\d|
            911[17]
          )\d{5}
        </nationalNumberPattern>
      </mobile>
      <!-- Other numbers as per GB. -->
      <pager>
        <possibleLengths national=""10""/>
        <exampleNumber>7640123456</exampleNumber>
        <nationalNumberPattern>
          76(?:
            464|
            652
          )\d{5}|
          76(?:
            0[0-28]|
            2[356]|
            34|
            4[01347]|
            5[49]|
            6[0-369]|
            77|
            8[14]|
            9[139]
          )\d{6}
        </nationalNumberPattern>
      </pager>
      <tollFree>
        <possibleLengths national=""7,9,10""/>
        <exampleNumber>8001234567</exampleNumber>
";
   "        <nationalNumberPattern>
          80[08]\d{7}|
          800\d{6}|
          8001111
        </nationalNumberPattern>
      </tollFree>
      <premiumRate>
        <possibleLengths national=""7,10""/>
        <exampleNumber>9012345678</exampleNumber>
        <nationalNumberPattern>
          (?:
            8(?:
              4[2-5]|
              7[0-3]
            )|
            9(?:
              [01]\d|
              8[0-3]
            )
          )\d{7}|
          845464\d
        </nationalNumberPattern>
      </premiumRate>
      <personalNumber>
        <possibleLengths national=""10""/>
        <exampleNumber>7012345678</exampleNumber>
        <nationalNumberPattern>70\d{8}</nationalNumberPattern>
      </personalNumber>
      <voip>
        <possibleLengths national=""10""/>
        <exampleNumber>5612345678</exampleNumber>
        <nationalNumberPattern>56\d{8}</nationalNumberPattern>
      </voip>
      <uan>
        <possibleLengths national=""10""/>
        <exampleNumber>5512345678</exampleNumber>
        <nationalNumberPattern>
          (?:
            3[0347]|
            55
          )\d{8}
        </nationalNumberPattern>
      </uan>
    </territory>"];
  ["

    <!-- Ghana (GH) -->
    <!-- No premiumRate information can be found. -->
    <!-- http://www.itu.int/oth/T0202000052/en -->
    <!-- http://www.nca.org.gh/index.php?option=com_content&view=article&id=90&Itemid=65 -->
    <territory id=""GH"" countryCode=""233"" internationalPrefix=""00"" nationalPrefix=""0""
               mobileNumberPortableRegion=""true"">
      <availableFormats>
        <numberFormat pattern=""(\d{3})(\d{4})"">
          <leadingDigits>
            [237]|
            8[0-2]
          </leadingDigits>
          <format>$1 $2</format>
          <intlFormat>NA</intlFormat>
        </numberFormat>
        <numberFormat pattern=""(\d{3})(\d{5})"" nationalPrefixFormattingRule=""$NP$FG"">
          <leadingDigits>8</leadingDigits>
          <format>$1 $2</format>
        </numberFormat>
        <numberFormat pattern=""(\d{2})(\d{3})(\d{4})"" nationalPrefixFormattingRule=""$NP$FG"">
          <leadingDigits>[2358]</leadingDigits>
          <format>$1 $2 $3</format>
        </numberFormat>
      </availableFormats>
      <generalDesc>
        <nationalNumberPattern>
          [235]\d{8}|
          800\d{5,6}
        </nationalNumberPattern>
      </generalDesc>
      <noInternationalDialling>
        <possibleLengths national=""8,9""/>
        <nationalNumberPattern>800\d{5,6}</nationalNumberPattern>
      </noInternationalDialling>
      <fixedLine>
        <possibleLengths national=""9"" localOnly=""7""/>
        <exampleNumber>302345678</exampleNumber>
        <nationalNumberPattern>
          3082[0-5]\d{4}|
          3(?:
            0(?:
              [237]\d|
              8[01]
            )|
            [167](?:
              2[0-6]|
              7\d|
              80
            )|
            2(?:
              2[0-5]|
              7\d|
              80
            )|
            3(?:
              2[0-3]|
              7\d|
              80
            )|
            4(?:
              2[013-9]|
              3[01]|
              7\d|
              80
            )|
";
   "            5(?:
              2[0-7]|
              7\d|
              80
            )|
            8(?:
              2[0-2]|
              7\d|
              80
            )|
            9(?:
              [28]0|
              7\d
            )
          )\d{5}
        </nationalNumberPattern>
      </fixedLine>
      <mobile>
        <possibleLengths national=""9""/>
        <exampleNumber>231234567</exampleNumber>
        <nationalNumberPattern>
          (?:
            2(?:
              [0346-9]\d|
              5[67]
            )|
            5(?:
              [03-7]\d|
              9[1-9]
            )
          )\d{6}
        </nationalNumberPattern>
      </mobile>
      <!-- Found online references to these numbers, although they are not in the plan since they
           are not internationally diallable. -->
      <tollFree>
        <possibleLengths national=""8,9""/>
        <exampleNumber>80012345</exampleNumber>
        <nationalNumberPattern>800\d{5,6}</nationalNumberPattern>
      </tollFree>
    </territory>"];
  ["

    <!-- Gibraltar (GI) -->
    <!-- http://www.gra.gi/communications/numbering-plan -->
    <territory id=""GI"" countryCode=""350"" internationalPrefix=""00"" mobileNumberPortableRegion=""true"">
      <availableFormats>
        <!-- Most numbers are formatted as a block -->
        <numberFormat pattern=""(\d{3})(\d{5})"">
          <leadingDigits>2</leadingDigits>
          <format>$1 $2</format>
        </numberFormat>
      </availableFormats>
      <generalDesc>
        <nationalNumberPattern>
          (?:
            [25]\d|
            60
          )\d{6}
        </nationalNumberPattern>
      </generalDesc>
      <fixedLine>
        <possibleLengths national=""8""/>
        <exampleNumber>20012345</exampleNumber>
        <nationalNumberPattern>
          2190[0-2]\d{3}|
          2(?:
            0(?:
              [02]\d|
              3[01]
            )|
            16[24-9]|
            2[2-5]\d
          )\d{4}
        </nationalNumberPattern>
      </fixedLine>
      <mobile>
        <possibleLengths national=""8""/>
        <exampleNumber>57123456</exampleNumber>
        <nationalNumberPattern>
          5251[0-4]\d{3}|
          (?:
            5(?:
              [146-8]\d\d|
              250
            )|
            60(?:
              1[01]|
              6\d
            )
          )\d{4}
        </nationalNumberPattern>
      </mobile>
    </territory>"];
  ["

    <!-- Greenland (GL) -->
    <!-- http://www.itu.int/oth/T0202000056/en -->
    <territory id=""GL"" countryCode=""299"" internationalPrefix=""00"">
      <availableFormats>
        <numberFormat pattern=""(\d{2})(\d{2})(\d{2})"">
          <leadingDigits>
            19|
            [2-9]
          </leadingDigits>
          <format>$1 $2 $3</format>
        </numberFormat>
      </availableFormats>
      <generalDesc>
        <nationalNumberPattern>
          (?:
            19|
            [2-689]\d|
            70
          )\d{4}
        </nationalNumberPattern>
      </generalDesc>
      <!-- Including VSAT numbers here. -->
      <fixedLine>
        <possibleLengths national=""6""/>
        <exampleNumber>321000</exampleNumber>
        <nationalNumberPattern>
          (?:
            19|
            3[1-7]|
            [68][1-9]|
            70|
            9\d
          )\d{4}
        </nationalNumberPattern>
      </fixedLine>
      <mobile>
        <possibleLengths national=""6""/>
        <exampleNumber>221234</exampleNumber>
        <nationalNumberPattern>[245]\d{5}</nationalNumberPattern>
      </mobile>
      <tollFree>
        <possibleLengths national=""6""/>
        <exampleNumber>801234</exampleNumber>
        <nationalNumberPattern>80\d{4}</nationalNumberPattern>
      </tollFree>
      <voip>
        <possibleLengths national=""6""/>
        <exampleNumber>381234</exampleNumber>
        <nationalNumberPattern>3[89]\d{4}</nationalNumberPattern>
      </voip>
    </territory>"];
  ["

    <!-- Gambia (GM) -->
    <!-- http://www.itu.int/oth/T020200004F/en -->
    <territory id=""GM"" countryCode=""220"" internationalPrefix=""00"">
      <availableFormats>
        <numberFormat pattern=""(\d{3})(\d{4})"">
          <leadingDigits>[2-9]</leadingDigits>
          <format>$1 $2</format>
        </numberFormat>
      </availableFormats>
      <generalDesc>
        <nationalNumberPattern>[2-9]\d{6}</nationalNumberPattern>
      </generalDesc>
      <fixedLine>
        <possibleLengths national=""7""/>
        <exampleNumber>5661234</exampleNumber>
        <nationalNumberPattern>
          (?:
            4(?:
              [23]\d\d|
              4(?:
                1[024679]|
                [6-9]\d
              )
            )|
            5(?:
              5(?:
                3\d|
                4[0-7]
              )|
              6[67]\d|
              7(?:
                1[04]|
                2[035]|
                3[58]|
                48
              )
            )|
            8[0-389]\d\d
          )\d{3}
        </nationalNumberPattern>
      </fixedLine>
      <!-- Prefix 8[67] is moved here based on the user report. -->
      <mobile>
        <possibleLengths national=""7""/>
        <exampleNumber>3012345</exampleNumber>
        <nationalNumberPattern>
          556\d{4}|
          (?:
            [23679]\d|
            4[015]|
            5[0-489]|
            8[4-7]
          )\d{5}
        </nationalNumberPattern>
      </mobile>
    </territory>"];
  ["

    <!-- Guinea (GN) -->
    <!-- http://www.itu.int/oth/T020200005B/en -->
    <territory id=""GN"" countryCode=""224"" internationalPrefix=""00"">
      <availableFormats>
        <numberFormat pattern=""(\d{2})(\d{2})(\d{2})(\d{2})"">
          <leadingDigits>3</leadingDigits>
          <format>$1 $2 $3 $4</format>
        </numberFormat>
        <numberFormat pattern=""(\d{3})(\d{2})(\d{2})(\d{2})"">
          <leadingDigits>[67]</leadingDigits>
          <format>$1 $2 $3 $4</format>
        </numberFormat>
      </availableFormats>
      <generalDesc>
        <nationalNumberPattern>
          722\d{6}|
          (?:
            3|
            6\d
          )\d{7}
        </nationalNumberPattern>
      </generalDesc>
      <fixedLine>
        <possibleLengths national=""8""/>
        <exampleNumber>30241234</exampleNumber>
        <nationalNumberPattern>
          3(?:
            0(?:
              24|
              3[12]|
              4[1-35-7]|
              5[13]|
              6[189]|
              [78]1|
              9[1478]
            )|
            1\d\d
          )\d{4}
        </nationalNumberPattern>
      </fixedLine>
      <!-- Prefixes here match those assigned to carriers, as per the ITU communication Jan 23rd
           2013. -->
      <mobile>
        <possibleLengths national=""9""/>
        <exampleNumber>601123456</exampleNumber>
        <nationalNumberPattern>6[0-356]\d{7}</nationalNumberPattern>
      </mobile>
      <!-- Gamma concept network is being listed as VoIP as per
           http://www.gammaconcept.com/internet%20sat.html -->
      <voip>
        <possibleLengths national=""9""/>
        <exampleNumber>722123456</exampleNumber>
        <nationalNumberPattern>722\d{6}</nationalNumberPattern>
      </voip>
    </territory>"];
  ["

    <!-- Guadeloupe (GP) -->
    <!-- Main region for 'BL,MF' -->
    <!-- Linked fr";
   "om http://www.arcep.fr/index.php?id=interactivenumeros -->
    <!-- http://www.itu.int/oth/T0202000058/en -->
    <!-- https://extranet.arcep.fr/portail/Op%C3%A9rateursCE/Num%C3%A9rotation.aspx -->
    <!-- There is a direct link to accurate numbering assignments in the ITU document, but this does not always lo";
   "ad:
         https://extranet.arcep.fr/portail/LinkClick.aspx?fileticket=PBA1WK-wnOU%3d&tabid=217&portalid=0&mid=850
         This should be a spreadsheet containing ~28,000 rows, in which the Guadeloupe allocations are shown, but
         sometimes it only loads part of the spreadsheet (depending on your browser).
         The ranges in this spreadsheet are more accurate than the ITU document, which only has 3-digit prefixes and
         no operator assignments. -->
    <territory id=""GP"" mainCountryForCode=""true"" countryCode=""590"" internationalPrefix=""00""
               nationalPrefix=""0"" mobileNumberPortableRegion=""true"">
      <availableFormats>
        <numberFormat pattern=""(\d{3})(\d{2})(\d{2})(\d{2})"" nationalPrefixFormattingRule=""$NP$FG"">
          <leadingDigits>
            [5-79]|
            80[6-9]
          </leadingDigits>
          <format>$1 $2 $3 $4</format>
        </numberFormat>
        <numberFormat pattern=""(\d{3})(\d{2})(\d{2})(\d{2})"" nationalPrefixFormattingRule=""$NP$FG"">
          <leadingDigits>8</leadingDigits>
          <format>$1 $2 $3 $4</format>
        </numberFormat>
      </availableFormats>
      <generalDesc>
        <nationalNumberPattern>
          7090\d{5}|
          (?:
            [56]9|
            [89]\d
          )\d{7}
        </nationalNumberPattern>
      </generalDesc>
      <fixedLine>
        <possibleLengths national=""9""/>
        <exampleNumber>590201234</exampleNumber>
        <nationalNumberPattern>
          (?:
            59(?:
              0(?:
                0[1-68]|
                [14][0-24-9]|
                2[0-68]|
";
   "                3[1-9]|
                5[3-579]|
                [68][0-689]|
                7[08]|
                9\d
              )|
              87\d
            )|
            80[6-9]\d\d
          )\d{4}
        </nationalNumberPattern>
      </fixedLine>
      <!-- Any ranges assigned fr";
   "om http://www.arcep.fr/index.php?id=interactivenumeros have been
           listed as belonging to Guadeloupe, St Martin and St Barthélemy, since we can't reliably
           distinguish between them. As per Wikipedia Guadeloupe Téléphone Mobile operator is no
           longer functioning. However we support these ranges as they are still mentioned in
           ARCEP numbering plan doc. -->
      <mobile>
        <possibleLengths national=""9""/>
        <exampleNumber>690001234</exampleNumber>
        <nationalNumberPattern>
          (?:
            69(?:
              0\d\d|
              1(?:
                2[2-9]|
                3[0-5]
              )
            )|
            7090[0-4]
          )\d{4}
        </nationalNumberPattern>
      </mobile>
      <!-- As per ARCEP, mainland France and overseas territories use 0800 to 0805 as Toll-free
           numbers. -->
      <tollFree>
        <possibleLengths national=""9""/>
        <exampleNumber>800012345</exampleNumber>
        <nationalNumberPattern>80[0-5]\d{6}</nationalNumberPattern>
      </tollFree>
      <premiumRate>
        <possibleLengths national=""9""/>
        <exampleNumber>810123456</exampleNumber>
        <nationalNumberPattern>8[129]\d{7}</nationalNumberPattern>
      </premiumRate>
      <voip>
        <possibleLengths national=""9""/>
        <exampleNumber>976012345</exampleNumber>
        <nationalNumberPattern>
          9(?:
            (?:
              39[5-7]|
              76[018]
            )\d|
            475[0-6]
          )\d{4}
        </nationalNumberPattern>
      </voip>
    </territory>"];
  ["

    <!-- Equatorial Guinea (GQ) -->
    <!-- http://www.itu.int/oth/T0202000041/en -->
    <territory id=""GQ"" countryCode=""240"" internationalPrefix=""00"">
      <availableFormats>
        <numberFormat pattern=""(\d{3})(\d{3})(\d{3})"">
          <leadingDigits>[235]</leadingDigits>
          <format>$1 $2 $3</format>
        </numberFormat>
        <numberFormat pattern=""(\d{3})(\d{6})"">
          <leadingDigits>[89]</leadingDigits>
          <format>$1 $2</format>
        </numberFormat>
      </availableFormats>
      <generalDesc>
        <nationalNumberPattern>
          222\d{6}|
          (?:
            3\d|
            55|
            [89]0
          )\d{7}
        </nationalNumberPattern>
      </generalDesc>
      <fixedLine>
        <possibleLengths national=""9""/>
        <exampleNumber>333091234</exampleNumber>
        <nationalNumberPattern>
          33[0-24-9]\d[46]\d{4}|
          3(?:
            33|
            5\d
          )\d[7-9]\d{4}
        </nationalNumberPattern>
      </fixedLine>
      <mobile>
        <possibleLengths national=""9""/>
        <exampleNumber>222123456</exampleNumber>
        <nationalNumberPattern>
          (?:
            222|
            55\d
          )\d{6}
        </nationalNumberPattern>
      </mobile>
      <!-- Note that personal and sharedCost numbers are said to go under here too - hopefully when
           they start allocating them there will be a differentiation of prefixes, but this is not
           clear now. -->
      <tollFree>
        <possibleLengths national=""9""/>
        <exampleNumber>800123456</exampleNumber>
        <nationalNumberPattern>80\d[1-9]\d{5}</nationalNumberPattern>
      </tollFree>
      <premiumRate>
        <possibleLengths national=""9""/>
        <exampleNumber>900123456</exampleNumber>
        <nationalNumberPattern>90\d[1-9]\d{5}</nationalNumberPattern>
      </premiumRate>
    </territory>"];
  ["

    <!-- Greece (GR) -->
    <!-- http://www.itu.int/oth/T0202000055/en -->
    <!-- http://en.wikipedia.org/wiki/%2B30 -->
    <!-- http://www.eett.gr/opencms/opencms/EETT_EN/Electronic_Communications/Telecoms/Numbering/NumberAssignments.html -->
    <territory id=""GR"" countryCode=""30"" internationalPrefix=""00"" mobileNumberPortableRegion=""true"">
      <availableFormats>
        <numberFormat pattern=""(\d{2})(\d{4})(\d{4})"">
          <leadingDigits>
            21|
            7
          </leadingDigits>
          <format>$1 $2 $3</format>
        </numberFormat>
        <numberFormat pattern=""(\d{4})(\d{6})"">
          <leadingDigits>
            2(?:
              2|
              3[2-57-9]|
              4[2-469]|
              5[2-59]|
              6[2-9]|
              7[2-69]|
              8[2-49]
            )|
            5
          </leadingDigits>
          <format>$1 $2</format>
        </numberFormat>
        <numberFormat pattern=""(\d{3})(\d{3})(\d{4})"">
          <leadingDigits>[2689]</leadingDigits>
          <format>$1 $2 $3</format>
        </numberFormat>
        <numberFormat pattern=""(\d{3})(\d{3,4})(\d{5})"">
          <leadingDigits>8</leadingDigits>
          <format>$1 $2 $3</format>
        </numberFormat>
      </availableFormats>
      <generalDesc>
        <nationalNumberPattern>
          5005000\d{3}|
          8\d{9,11}|
          (?:
            [269]\d|
            70
          )\d{8}
        </nationalNumberPattern>
      </generalDesc>
      <fixedLine>
        <possibleLengths national=""10""/>
        <exampleNumber>2123456789</exampleNumber>
        <nationalNumberPattern>
          2(?:
            1\d\d|
            2(?:
              2[1-46-9]|
              [36][1-8]|
              4[1-7]|
              5[1-4]|
              7[1-5]|
              [89][1-9]
            )|
            3(?:
              1\d|
              2[1-57]|
              [35][1-3]|
              4[13]|
              7[1-7]|
              8[124-6]|
              9[1-79]
";
   "            )|
            4(?:
              1\d|
              2[1-8]|
              3[1-4]|
              4[13-5]|
              6[1-578]|
              9[1-5]
            )|
            5(?:
              1\d|
              [29][1-4]|
              3[1-5]|
              4[124]|
              5[1-6]
            )|
            6(?:
              1\d|
              [269][1-6]|
              3[1245]|
              4[1-7]|
              5[13-9]|
              7[14]|
              8[1-5]
            )|
            7(?:
              1\d|
              2[1-5]|
              3[1-6]|
              4[1-7]|
              5[1-57]|
              6[135]|
              9[125-7]
            )|
            8(?:
              1\d|
              2[1-5]|
              [34][1-4]|
              9[1-57]
            )
          )\d{6}
        </nationalNumberPattern>
      </fixedLine>
      <mobile>
        <possibleLengths national=""10""/>
        <exampleNumber>6912345678</exampleNumber>
        <nationalNumberPattern>
          68[57-9]\d{7}|
          (?:
            69|
            94
          )\d{8}
        </nationalNumberPattern>
      </mobile>
      <tollFree>
        <possibleLengths national=""[10-12]""/>
        <exampleNumber>8001234567</exampleNumber>
        <nationalNumberPattern>800\d{7,9}</nationalNumberPattern>
      </tollFree>
      <premiumRate>
        <possibleLengths national=""10""/>
        <exampleNumber>9091234567</exampleNumber>
        <nationalNumberPattern>90[19]\d{7}</nationalNumberPattern>
      </premiumRate>
      <!-- Including calls with maximum charge of 0,25 EUR/minute here instead of under premium
           rate. -->
      <sharedCost>
        <possibleLengths national=""10""/>
        <exampleNumber>8011234567</exampleNumber>
        <nationalNumberPattern>
          8(?:
            0[16]|
            12|
            [27]5|
            50
          )\d{7}
        </nationalNumberPattern>
      </sharedCost>
      <personalNumber>
        <possibleLengths national=""10""/>
";
   "        <exampleNumber>7012345678</exampleNumber>
        <nationalNumberPattern>70\d{8}</nationalNumberPattern>
      </personalNumber>
      <uan>
        <possibleLengths national=""10""/>
        <exampleNumber>5005000123</exampleNumber>
        <nationalNumberPattern>5005000\d{3}</nationalNumberPattern>
      </uan>
    </territory>"];
  ["

    <!-- Guatemala (GT) -->
    <!-- http://www.itu.int/oth/T020200005A/en -->
    <!-- http://www.sit.gob.gt/index.php?page=plan-de-numeracion -->
    <!-- http://en.wikipedia.org/wiki/Telephone_numbers_in_Guatemala -->
    <territory id=""GT"" countryCode=""502"" internationalPrefix=""00"">
      <availableFormats>
        <numberFormat pattern=""(\d{4})(\d{4})"">
          <leadingDigits>[2-8]</leadingDigits>
          <format>$1 $2</format>
        </numberFormat>
        <numberFormat pattern=""(\d{4})(\d{3})(\d{4})"">
          <leadingDigits>1</leadingDigits>
          <format>$1 $2 $3</format>
        </numberFormat>
      </availableFormats>
      <generalDesc>
        <nationalNumberPattern>
          80\d{6}|
          (?:
            1\d{3}|
            [2-7]
          )\d{7}
        </nationalNumberPattern>
      </generalDesc>
      <fixedLine>
        <possibleLengths national=""8""/>
        <exampleNumber>22456789</exampleNumber>
        <nationalNumberPattern>[267][2-9]\d{6}</nationalNumberPattern>
      </fixedLine>
      <mobile>
        <possibleLengths national=""8""/>
        <exampleNumber>51234567</exampleNumber>
        <nationalNumberPattern>
          (?:
            [3-5]\d\d|
            80[0-4]
          )\d{5}
        </nationalNumberPattern>
      </mobile>
      <tollFree>
        <possibleLengths national=""11""/>
        <exampleNumber>18001112222</exampleNumber>
        <nationalNumberPattern>18[01]\d{8}</nationalNumberPattern>
      </tollFree>
      <premiumRate>
        <possibleLengths national=""11""/>
        <exampleNumber>19001112222</exampleNumber>
        <nationalNumberPattern>19\d{9}</nationalNumberPattern>
      </premiumRate>
    </territory>"];
  ["

    <!-- Guam (GU) -->
    <!-- Calling code and formatting shared with 'US' -->
    <!-- http://www.nationalnanpa.com/nas/public/assigned_code_query_step1.do?method=resetCodeQueryModel -->
    <territory id=""GU"" countryCode=""1"" leadingDigits=""671"" internationalPrefix=""011""
               nationalPrefix=""1"" nationalPrefixForParsing=""([2-9]\d{6})$|1""
               nationalPrefixTransformRule=""671$1"">
      <generalDesc>
        <nationalNumberPattern>
          (?:
            [58]\d\d|
            671|
            900
          )\d{7}
        </nationalNumberPattern>
      </generalDesc>
      <!-- Added 671 400/489/555/68[23]/720/721/972 based on information fr";
   "om
           http://www.area-codes.com/area-code/area-code-671.asp -->
      <fixedLine>
        <possibleLengths national=""10"" localOnly=""7""/>
        <exampleNumber>6713001234</exampleNumber>
        <nationalNumberPattern>
          671(?:
            2\d\d|
            3(?:
              00|
              3[39]|
              4[349]|
              55|
              6[26]
            )|
            4(?:
              00|
              56|
              7[1-9]|
              8[02-9]
            )|
            5(?:
              55|
              6[2-5]|
              88
            )|
            6(?:
              3[2-578]|
              4[24-9]|
              5[34]|
              78|
              8[235-9]
            )|
            7(?:
              [0479]7|
              2[0167]|
              3[45]|
              8[7-9]
            )|
            8(?:
              [2-57-9]8|
              6[478]
            )|
            9(?:
              2[29]|
              6[79]|
              7[1279]|
              8[7-9]|
              9[16-9]
            )
          )\d{4}
        </nationalNumberPattern>
      </fixedLine>
      <!-- We assume mobile phone numbers to be the same as fixed-line - further info unavailable -->
      <mobile>
        <possibleLengths national=""10"" localOnly=""7""/>
        <exampleNumber>6713001234</exampleNumber>
";
   "        <nationalNumberPattern>
          671(?:
            2\d\d|
            3(?:
              00|
              3[39]|
              4[349]|
              55|
              6[26]
            )|
            4(?:
              00|
              56|
              7[1-9]|
              8[02-9]
            )|
            5(?:
              55|
              6[2-5]|
              88
            )|
            6(?:
              3[2-578]|
              4[24-9]|
              5[34]|
              78|
              8[235-9]
            )|
            7(?:
              [0479]7|
              2[0167]|
              3[45]|
              8[7-9]
            )|
            8(?:
              [2-57-9]8|
              6[478]
            )|
            9(?:
              2[29]|
              6[79]|
              7[1279]|
              8[7-9]|
              9[16-9]
            )
          )\d{4}
        </nationalNumberPattern>
      </mobile>
      <tollFree>
        <possibleLengths national=""10""/>
        <exampleNumber>8002123456</exampleNumber>
        <nationalNumberPattern>
          8(?:
            00|
            33|
            44|
            55|
            66|
            77|
            88
          )[2-9]\d{6}
        </nationalNumberPattern>
      </tollFree>
      <premiumRate>
        <possibleLengths national=""10""/>
        <exampleNumber>9002123456</exampleNumber>
        <nationalNumberPattern>900[2-9]\d{6}</nationalNumberPattern>
      </premiumRate>
      <!-- https://www.nationalnanpa.com/number_resource_info/5XX_codes.html -->
      <personalNumber>
        <possibleLengths national=""10""/>
        <exampleNumber>5002345678</exampleNumber>
        <nationalNumberPattern>
          52(?:
            3(?:
              [2-46-9][02-9]\d|
              5(?:
                [02-46-9]\d|
                5[0-46-9]
              )
            )|
            4(?:
              [2-478][02-9]\d|
              5(?:
                [034]\d|
                2[024-9]|
                5[0-46-9]
";
   "              )|
              6(?:
                0[1-9]|
                [2-9]\d
              )|
              9(?:
                [05-9]\d|
                2[0-5]|
                49
              )
            )
          )\d{4}|
          52[34][2-9]1[02-9]\d{4}|
          5(?:
            00|
            2[125-9]|
            3[23]|
            44|
            66|
            77|
            88
          )[2-9]\d{6}
        </nationalNumberPattern>
      </personalNumber>
    </territory>"];
  ["

    <!-- Guinea-Bissau (GW) -->
    <!-- http://www.itu.int/oth/T020200005C/en -->
    <territory id=""GW"" countryCode=""245"" internationalPrefix=""00"">
      <availableFormats>
        <numberFormat pattern=""(\d{3})(\d{4})"">
          <leadingDigits>40</leadingDigits>
          <format>$1 $2</format>
        </numberFormat>
        <numberFormat pattern=""(\d{3})(\d{3})(\d{3})"">
          <leadingDigits>[49]</leadingDigits>
          <format>$1 $2 $3</format>
        </numberFormat>
      </availableFormats>
      <generalDesc>
        <nationalNumberPattern>
          [49]\d{8}|
          4\d{6}
        </nationalNumberPattern>
      </generalDesc>
      <fixedLine>
        <possibleLengths national=""9""/>
        <exampleNumber>443201234</exampleNumber>
        <nationalNumberPattern>443\d{6}</nationalNumberPattern>
      </fixedLine>
      <mobile>
        <possibleLengths national=""9""/>
        <exampleNumber>955012345</exampleNumber>
        <nationalNumberPattern>
          9(?:
            5\d|
            6[569]|
            77
          )\d{6}
        </nationalNumberPattern>
      </mobile>
      <voip>
        <possibleLengths national=""7""/>
        <exampleNumber>4012345</exampleNumber>
        <nationalNumberPattern>40\d{5}</nationalNumberPattern>
      </voip>
    </territory>"];
  ["

    <!-- Guyana (GY) -->
    <!-- http://www.itu.int/oth/T020200005D/en -->
    <territory id=""GY"" countryCode=""592"" internationalPrefix=""001"">
      <availableFormats>
        <numberFormat pattern=""(\d{3})(\d{4})"">
          <leadingDigits>[2-9]</leadingDigits>
          <format>$1 $2</format>
        </numberFormat>
      </availableFormats>
      <generalDesc>
        <nationalNumberPattern>
          (?:
            [2-8]\d{3}|
            9008
          )\d{3}
        </nationalNumberPattern>
      </generalDesc>
      <fixedLine>
        <possibleLengths national=""7""/>
        <exampleNumber>2201234</exampleNumber>
        <nationalNumberPattern>
          (?:
            2(?:
              1[6-9]|
              2[0-35-9]|
              3[1-4]|
              5[3-9]|
              6\d|
              7[0-79]
            )|
            3(?:
              2[25-9]|
              3\d
            )|
            4(?:
              4[0-24]|
              5[56]
            )|
            50[0-6]|
            77[1-57]
          )\d{4}
        </nationalNumberPattern>
      </fixedLine>
      <!-- Although the ITU document would allow for a stricter pattern, the country has a track
           record of underreporting valid mobile ranges and 6XXXXXX is almost fully assigned.
           A more lenient pattern is better here. -->
      <mobile>
        <possibleLengths national=""7""/>
        <exampleNumber>6091234</exampleNumber>
        <nationalNumberPattern>
          (?:
            51[01]|
            6\d\d|
            7(?:
              [0-5]\d|
              6[0-79]|
              70
            )
          )\d{4}
        </nationalNumberPattern>
      </mobile>
      <tollFree>
        <possibleLengths national=""7""/>
        <exampleNumber>2891234</exampleNumber>
        <nationalNumberPattern>
          (?:
            289|
            8(?:
              00|
              6[28]|
              88|
              99
            )
          )\d{4}
        </nationalNumberPattern>
";
   "      </tollFree>
      <premiumRate>
        <possibleLengths national=""7""/>
        <exampleNumber>9008123</exampleNumber>
        <nationalNumberPattern>9008\d{3}</nationalNumberPattern>
      </premiumRate>
      <voip>
        <possibleLengths national=""7""/>
        <exampleNumber>5151234</exampleNumber>
        <nationalNumberPattern>515\d{4}</nationalNumberPattern>
      </voip>
    </territory>"];
  ["

    <!-- Hong Kong (HK) -->
    <!-- https://www.ofca.gov.hk/en/industry_focus/industry_focus/portability/numbering/index.html -->
    <territory id=""HK"" countryCode=""852"" preferredInternationalPrefix=""00""
               internationalPrefix=""00(?:30|5[09]|[126-9]?)"" mobileNumberPortableRegion=""true"">
      <availableFormats>
        <numberFormat pattern=""(\d{3})(\d{2,5})"">
          <leadingDigits>900</leadingDigits>
          <leadingDigits>9003</leadingDigits>
          <format>$1 $2</format>
        </numberFormat>
        <numberFormat pattern=""(\d{4})(\d{4})"">
          <leadingDigits>
            [2-7]|
            8[1-4]|
            9(?:
              0[1-9]|
              [1-8]
            )
          </leadingDigits>
          <format>$1 $2</format>
        </numberFormat>
        <numberFormat pattern=""(\d{3})(\d{3})(\d{3})"">
          <leadingDigits>8</leadingDigits>
          <format>$1 $2 $3</format>
        </numberFormat>
        <numberFormat pattern=""(\d{3})(\d{2})(\d{3})(\d{3})"">
          <leadingDigits>9</leadingDigits>
          <format>$1 $2 $3 $4</format>
        </numberFormat>
      </availableFormats>
      <generalDesc>
        <nationalNumberPattern>
          8[0-46-9]\d{6,7}|
          9\d{4,7}|
          (?:
            [2-7]|
            9\d{3}
          )\d{7}
        </nationalNumberPattern>
      </generalDesc>
      <fixedLine>
        <possibleLengths national=""8""/>
        <exampleNumber>21234567</exampleNumber>
        <nationalNumberPattern>
          (?:
            2(?:
              [13-9]\d|
              2[013-9]
            )\d|
            3(?:
              (?:
                [1569][0-24-9]|
                4[0-246-9]|
                7[0-24-69]
              )\d|
              8(?:
                4[0-8]|
                [579]\d|
                6[0-5]
              )
            )|
            58(?:
              0[1-9]|
              1[2-9]
            )
          )\d{4}
        </nationalNumberPattern>
      </fixedLine>
";
   "      <!-- Prefixes assigned to 'CMMobile Gl";
   "obal Communications Ltd' are on hold as per Ofcom
           24 Nov 2017 update, but we continue to support them as there is no much information
           when these numbers will be reactivated again. -->
      <mobile>
        <possibleLengths national=""8""/>
        <exampleNumber>51234567</exampleNumber>
        <nationalNumberPattern>
          (?:
            4(?:
              (?:
                09|
                24
              )[3-6]|
              44[0-35-9]|
              6(?:
                4[0-57-9]|
                6[0-6]
              )|
              7(?:
                4[0-48]|
                6[0-5]
              )
            )|
            5(?:
              25[3-7]|
              35[4-8]|
              73[0-6]|
              95[0-8]
            )|
            6(?:
              26[013-8]|
              (?:
                66|
                78
              )[0-5]
            )|
            70(?:
              7[1-8]|
              8[0-8]
            )|
            84(?:
              4[0-2]|
              8[0-35-9]
            )|
            9(?:
              29[013-9]|
              39[014-9]|
              59[0-467]|
              899
            )
          )\d{4}|
          (?:
            4(?:
              4[0-35-9]|
              6[0-357-9]|
              7[0-35]
            )|
            5(?:
              [1-59][0-46-9]|
              6[0-4689]|
              7[0-246-9]
            )|
            6(?:
              0[1-9]|
              [13-59]\d|
              [268][0-57-9]|
              7[0-79]
            )|
            70[1-59]|
            84[0-39]|
            9(?:
              0[1-9]|
              1[02-9]|
              [2358][0-8]|
              [467]\d
            )
          )\d{5}
        </nationalNumberPattern>
      </mobile>
      <pager>
        <possibleLengths national=""8""/>
        <exampleNumber>71123456</exampleNumber>
        <nationalNumberPattern>
          7(?:
";
   "            1(?:
              0[0-38]|
              1[0-3679]|
              3[013]|
              69|
              9[0136]
            )|
            2(?:
              [02389]\d|
              1[18]|
              7[27-9]
            )|
            3(?:
              [0-38]\d|
              7[0-369]|
              9[2357-9]
            )|
            47\d|
            5(?:
              [178]\d|
              5[0-5]
            )|
            6(?:
              0[0-7]|
              2[236-9]|
              [35]\d
            )|
            7(?:
              [27]\d|
              8[7-9]
            )|
            8(?:
              [23689]\d|
              7[1-9]
            )|
            9(?:
              [025]\d|
              6[0-246-8]|
              7[0-36-9]|
              8[238]
            )
          )\d{4}
        </nationalNumberPattern>
      </pager>
      <tollFree>
        <possibleLengths national=""9""/>
        <exampleNumber>800123456</exampleNumber>
        <nationalNumberPattern>800\d{6}</nationalNumberPattern>
      </tollFree>
      <premiumRate>
        <possibleLengths national=""[5-8],11""/>
        <exampleNumber>90012345678</exampleNumber>
        <nationalNumberPattern>
          900(?:
            [0-24-9]\d{7}|
            3\d{1,4}
          )
        </nationalNumberPattern>
      </premiumRate>
      <personalNumber>
        <possibleLengths national=""8""/>
        <exampleNumber>81123456</exampleNumber>
        <nationalNumberPattern>
          8(?:
            1[0-4679]\d|
            2(?:
              [0-36]\d|
              7[0-4]
            )|
            3(?:
              [034]\d|
              2[09]|
              70
            )
          )\d{4}
        </nationalNumberPattern>
      </personalNumber>
      <!-- These are mentioned as Access Codes in the ITU doc however UAN seems to be the best
           since they seem to cost the same as fixed-line based on our correspondence with ofca,
           and are used by businesses to forward to a lo";
   "cal number. -->
";
   "      <uan>
        <possibleLengths national=""8""/>
        <exampleNumber>30161234</exampleNumber>
        <nationalNumberPattern>
          30(?:
            0[1-9]|
            [15-7]\d|
            2[047]|
            89
          )\d{4}
        </nationalNumberPattern>
      </uan>
    </territory>"];
  ["

    <!-- Honduras (HN) -->
    <!-- It seems there is no longer a trunk prefix in use, based on websites like
         http://www.howtocallabroad.com/codes.html and on seeing how locals write their numbers in
         national format. -->
    <!-- http://www.itu.int/oth/T020200005F/en -->
    <territory id=""HN"" countryCode=""504"" internationalPrefix=""00"">
      <availableFormats>
        <numberFormat pattern=""(\d{4})(\d{4})"">
          <leadingDigits>[237-9]</leadingDigits>
          <format>$1-$2</format>
        </numberFormat>
        <numberFormat pattern=""(\d{3})(\d{4})(\d{4})"">
          <leadingDigits>8</leadingDigits>
          <format>$1 $2 $3</format>
          <intlFormat>NA</intlFormat>
        </numberFormat>
      </availableFormats>
      <generalDesc>
        <nationalNumberPattern>
          8\d{10}|
          [237-9]\d{7}
        </nationalNumberPattern>
      </generalDesc>
      <noInternationalDialling>
        <possibleLengths national=""11""/>
        <nationalNumberPattern>8002\d{7}</nationalNumberPattern>
      </noInternationalDialling>
      <!-- Extra prefixes 2244, 226[24], 227[0135689], 228X, 2292, 2407, 250[78], 2516, 2540,
           256[014], 2570, 2580, 260X, 2617, 262[067], 263[04], 2780 and 2791 were added fr";
   "om numbers
           found online and user reports. -->
      <fixedLine>
        <possibleLengths national=""8""/>
        <exampleNumber>22123456</exampleNumber>
        <nationalNumberPattern>
          2(?:
            2(?:
              0[0-59]|
              1[1-9]|
              [23]\d|
              4[02-7]|
              5[57]|
              6[245]|
              7[0135689]|
              8[01346-9]|
              9[0-2]
            )|
            4(?:
              0[578]|
              2[3-59]|
              3[13-9]|
              4[0-68]|
              5[1-3589]
            )|
            5(?:
              0[2357-9]|
              1[1-356]|
              4[03-5]|
              5\d|
              6[014-69]|
              7[04]|
";
   "              80
            )|
            6(?:
              [056]\d|
              17|
              2[067]|
              3[047]|
              4[0-378]|
              [78][0-8]|
              9[01]
            )|
            7(?:
              0[5-79]|
              6[46-9]|
              7[02-9]|
              8[034]|
              91
            )|
            8(?:
              79|
              8[0-357-9]|
              9[1-57-9]
            )
          )\d{4}
        </nationalNumberPattern>
      </fixedLine>
      <mobile>
        <possibleLengths national=""8""/>
        <exampleNumber>91234567</exampleNumber>
        <nationalNumberPattern>[37-9]\d{7}</nationalNumberPattern>
      </mobile>
      <tollFree>
        <possibleLengths national=""11""/>
        <exampleNumber>80021234567</exampleNumber>
        <nationalNumberPattern>8002\d{7}</nationalNumberPattern>
      </tollFree>
    </territory>"];
  ["

    <!-- Croatia (HR) -->
    <!-- http://www.itu.int/oth/T0202000032/en -->
    <!-- http://en.wikipedia.org/wiki/%2B385 -->
    <territory id=""HR"" countryCode=""385"" internationalPrefix=""00"" nationalPrefix=""0""
               mobileNumberPortableRegion=""true"">
      <availableFormats>
        <!-- For 7 digit numbers of premium rate. -->
        <numberFormat pattern=""(\d{2})(\d{2})(\d{3})"" nationalPrefixFormattingRule=""$NP$FG"">
          <leadingDigits>6[01]</leadingDigits>
          <format>$1 $2 $3</format>
        </numberFormat>
        <numberFormat pattern=""(\d{3})(\d{2})(\d{2,3})"" nationalPrefixFormattingRule=""$NP$FG"">
          <leadingDigits>8</leadingDigits>
          <format>$1 $2 $3</format>
        </numberFormat>
        <!-- The plan says 1 XXX XXXX but the government and lo";
   "cal telecom websites are formatted 1
             XXXX XXX, so we prefer that formatting here. These same sources prefer XXX XXX to XX
             XXXX as well. -->
        <numberFormat pattern=""(\d)(\d{4})(\d{3})"" nationalPrefixFormattingRule=""$NP$FG"">
          <leadingDigits>1</leadingDigits>
          <format>$1 $2 $3</format>
        </numberFormat>
        <!-- For 8 and 9 digit numbers of premium, personal and UAN numbers. -->
        <numberFormat pattern=""(\d{2})(\d{3})(\d{3,4})"" nationalPrefixFormattingRule=""$NP$FG"">
          <leadingDigits>
            6|
            7[245]
          </leadingDigits>
          <format>$1 $2 $3</format>
        </numberFormat>
        <!-- For 8 and 9 digit numbers of mobile. -->
        <numberFormat pattern=""(\d{2})(\d{3})(\d{3,4})"" nationalPrefixFormattingRule=""$NP$FG"">
          <leadingDigits>9</leadingDigits>
          <format>$1 $2 $3</format>
        </numberFormat>
        <numberFormat pattern=""(\d{2})(\d{3})(\d{3,4})"" nationalPrefixFormattingRule=""$NP$FG"">
          <leadingDigits>[2-57]</leadingDigits>
          <format>$1 $2 $3</format>
        </numberFormat>
        <numberFormat pattern=""(\d{3})(\d{3})(\d{3})"" nationalPrefixFormattingRule=""$NP$FG"">
";
   "          <leadingDigits>8</leadingDigits>
          <format>$1 $2 $3</format>
        </numberFormat>
      </availableFormats>
      <generalDesc>
        <nationalNumberPattern>
          [2-69]\d{8}|
          80\d{5,7}|
          [1-79]\d{7}|
          6\d{6}
        </nationalNumberPattern>
      </generalDesc>
      <fixedLine>
        <possibleLengths national=""8,9"" localOnly=""6,7""/>
        <exampleNumber>12345678</exampleNumber>
        <nationalNumberPattern>
          1\d{7}|
          (?:
            2[0-3]|
            3[1-5]|
            4[02-47-9]|
            5[1-3]
          )\d{6,7}
        </nationalNumberPattern>
      </fixedLine>
      <mobile>
        <possibleLengths national=""8,9""/>
        <exampleNumber>921234567</exampleNumber>
        <nationalNumberPattern>
          9(?:
            (?:
              0[1-9]|
              [12589]\d
            )\d\d|
            7(?:
              [0679]\d\d|
              5(?:
                [01]\d|
                44|
                55|
                77|
                9[5-79]
              )
            )
          )\d{4}|
          98\d{6}
        </nationalNumberPattern>
      </mobile>
      <tollFree>
        <possibleLengths national=""[7-9]""/>
        <exampleNumber>800123456</exampleNumber>
        <nationalNumberPattern>80\d{5,7}</nationalNumberPattern>
      </tollFree>
      <premiumRate>
        <possibleLengths national=""7,8""/>
        <exampleNumber>6001234</exampleNumber>
        <nationalNumberPattern>
          6[01459]\d{6}|
          6[01]\d{5}
        </nationalNumberPattern>
      </premiumRate>
      <personalNumber>
        <possibleLengths national=""8""/>
        <exampleNumber>74123456</exampleNumber>
        <nationalNumberPattern>7[45]\d{6}</nationalNumberPattern>
      </personalNumber>
      <!-- ITU numbering specifies the length of the numbers with prefix 62 as 8, but there
           are numbers on the internet with 7 digits after the prefix too. -->
      <uan>
        <possibleLengths national=""8,9""/>
";
   "        <exampleNumber>62123456</exampleNumber>
        <nationalNumberPattern>
          62\d{6,7}|
          72\d{6}
        </nationalNumberPattern>
      </uan>
    </territory>"];
  ["

    <!-- Haiti (HT) -->
    <!-- http://www.itu.int/oth/T020200005E/en -->
    <!-- http://www.numberingplans.com/ -->
    <territory id=""HT"" countryCode=""509"" internationalPrefix=""00"">
      <availableFormats>
        <numberFormat pattern=""(\d{2})(\d{2})(\d{4})"">
          <leadingDigits>[2-589]</leadingDigits>
          <format>$1 $2 $3</format>
        </numberFormat>
      </availableFormats>
      <generalDesc>
        <nationalNumberPattern>[2-589]\d{7}</nationalNumberPattern>
      </generalDesc>
      <!-- Digicel reported 281 and 29[149] belong to them, the more recent ITU doc 20.I.2017
           agrees and classifies them as fixedLine so we follow that here. -->
      <fixedLine>
        <possibleLengths national=""8""/>
        <exampleNumber>22453300</exampleNumber>
        <nationalNumberPattern>
          2(?:
            2\d|
            5[1-5]|
            81|
            9[149]
          )\d{5}
        </nationalNumberPattern>
      </fixedLine>
      <!-- 32, 33, 35 are kept even though they are not in the ITU doc because numbers found
           online are working. -->
      <mobile>
        <possibleLengths national=""8""/>
        <exampleNumber>34101234</exampleNumber>
        <nationalNumberPattern>
          (?:
            [34]\d|
            5[568]
          )\d{6}
        </nationalNumberPattern>
      </mobile>
      <!-- ITU document says numbers with prefix 8 are ""value-added services and free numbers
           without making any further distinction. However, http://www.numberingplans.com/ seems
           to suggest they are free. -->
      <tollFree>
        <possibleLengths national=""8""/>
        <exampleNumber>80012345</exampleNumber>
        <nationalNumberPattern>8\d{7}</nationalNumberPattern>
      </tollFree>
      <!-- ITU document suggests 98\d{6}, but http://www.numberingplans.com/ restricts it to
           98[89]\d{5}. -->
      <voip>
        <possibleLengths national=""8""/>
        <exampleNumber>98901234</exampleNumber>
        <nationalNumberPattern>
";
   "          9(?:
            [67][0-4]|
            8[0-3589]|
            9\d
          )\d{5}
        </nationalNumberPattern>
      </voip>
    </territory>"];
  ["

    <!-- Hungary (HU) -->
    <!-- http://www.itu.int/oth/T0202000061/en -->
    <!-- As per Wikipedia https://en.wikipedia.org/wiki/Telephone_numbers_in_Hungary format
         for both fixed line and mobile number should be preceded with national prefix ""06"". -->
    <territory id=""HU"" countryCode=""36"" internationalPrefix=""00"" nationalPrefix=""06""
               mobileNumberPortableRegion=""true"">
      <availableFormats>
        <numberFormat pattern=""(\d)(\d{3})(\d{4})"" nationalPrefixFormattingRule=""($NP $FG)"">
          <leadingDigits>1</leadingDigits>
          <format>$1 $2 $3</format>
        </numberFormat>
        <numberFormat pattern=""(\d{2})(\d{3})(\d{3})"" nationalPrefixFormattingRule=""($NP $FG)"">
          <leadingDigits>
            [27][2-9]|
            3[2-7]|
            4[24-9]|
            5[2-79]|
            6|
            8[2-57-9]|
            9[2-69]
          </leadingDigits>
          <format>$1 $2 $3</format>
        </numberFormat>
        <numberFormat pattern=""(\d{2})(\d{3})(\d{3,4})"" nationalPrefixFormattingRule=""$NP $FG"">
          <leadingDigits>[2-9]</leadingDigits>
          <format>$1 $2 $3</format>
        </numberFormat>
      </availableFormats>
      <generalDesc>
        <nationalNumberPattern>
          [235-7]\d{8}|
          [1-9]\d{7}
        </nationalNumberPattern>
      </generalDesc>
      <noInternationalDialling>
        <possibleLengths national=""8,9""/>
        <nationalNumberPattern>
          (?:
            [48]0\d|
            680[29]
          )\d{5}
        </nationalNumberPattern>
      </noInternationalDialling>
      <fixedLine>
        <possibleLengths national=""8"" localOnly=""6,7""/>
        <exampleNumber>12345678</exampleNumber>
        <nationalNumberPattern>
          (?:
            1\d|
            [27][2-9]|
            3[2-7]|
            4[24-9]|
            5[2-79]|
            6[23689]|
            8[2-57-9]|
            9[2-69]
          )\d{6}
        </nationalNumberPattern>
      </fixedLine>
";
   "      <mobile>
        <possibleLengths national=""9""/>
        <exampleNumber>201234567</exampleNumber>
        <nationalNumberPattern>
          (?:
            [257]0|
            3[01]
          )\d{7}
        </nationalNumberPattern>
      </mobile>
      <!-- The prefix 40 which was earlier sharedcost is changed to toll free as of Jul. 2016.
           Toll free prefix 6802 supported based on user report. -->
      <tollFree>
        <possibleLengths national=""8,9""/>
        <exampleNumber>80123456</exampleNumber>
        <nationalNumberPattern>
          (?:
            [48]0\d|
            680[29]
          )\d{5}
        </nationalNumberPattern>
      </tollFree>
      <premiumRate>
        <possibleLengths national=""8""/>
        <exampleNumber>90123456</exampleNumber>
        <nationalNumberPattern>9[01]\d{6}</nationalNumberPattern>
      </premiumRate>
      <!-- Includes non-geographic nomadic numbers. -->
      <voip>
        <possibleLengths national=""9""/>
        <exampleNumber>211234567</exampleNumber>
        <nationalNumberPattern>21\d{7}</nationalNumberPattern>
      </voip>
      <!-- Includes numbers for corporate networks. -->
      <uan>
        <possibleLengths national=""9""/>
        <exampleNumber>381234567</exampleNumber>
        <nationalNumberPattern>38\d{7}</nationalNumberPattern>
      </uan>
    </territory>"];
  ["

    <!-- Indonesia (ID) -->
    <!-- Fr";
   "om 2001, very out of date. -->
    <!-- http://www.itu.int/oth/T0202000064/en -->
    <!-- http://en.wikipedia.org/wiki/%2B62 -->
    <territory id=""ID"" countryCode=""62"" internationalPrefix=""00[89]"" nationalPrefix=""0"">
      <availableFormats>
        <!-- Short UAN numbers -->
        <numberFormat pattern=""(\d)(\d{3})(\d{3})"">
          <leadingDigits>15</leadingDigits>
          <format>$1 $2 $3</format>
        </numberFormat>
        <!-- Fixed line 2-digit area codes -->
        <numberFormat pattern=""(\d{2})(\d{5,9})"" nationalPrefixFormattingRule=""($NP$FG)"">
          <leadingDigits>
            2[124]|
            [36]1
          </leadingDigits>
          <format>$1 $2</format>
        </numberFormat>
        <!-- http://en.wikipedia.org/wiki/Toll-free_telephone_number, and examples on the web show
             that sometimes they are followed by fewer digits -->
        <numberFormat pattern=""(\d{3})(\d{5,7})"" nationalPrefixFormattingRule=""$NP$FG"">
          <leadingDigits>800</leadingDigits>
          <format>$1 $2</format>
        </numberFormat>
        <!-- Fixed line 3-digit area codes -->
        <numberFormat pattern=""(\d{3})(\d{5,8})"" nationalPrefixFormattingRule=""($NP$FG)"">
          <leadingDigits>[2-79]</leadingDigits>
          <format>$1 $2</format>
        </numberFormat>
        <!-- 9-10 digit mobile numbers -->
        <numberFormat pattern=""(\d{3})(\d{3,4})(\d{3})"" nationalPrefixFormattingRule=""$NP$FG"">
          <leadingDigits>8[1-35-9]</leadingDigits>
          <format>$1-$2-$3</format>
        </numberFormat>
        <!-- Toll free numbers -->
        <numberFormat pattern=""(\d{3})(\d{6,8})"" nationalPrefixFormattingRule=""$NP$FG"">
          <leadingDigits>1</leadingDigits>
          <format>$1 $2</format>
        </numberFormat>
        <!-- Shared cost numbers -->
        <numberFormat pattern=""(\d{3})(\d{3})(\d{4})"" nationalPrefixFormattingRule=""$NP$FG"">
          <leadingDigits>804</leadingDigits>
";
   "          <format>$1 $2 $3</format>
        </numberFormat>
        <!-- UAN and premium rate numbers -->
        <numberFormat pattern=""(\d{3})(\d)(\d{3})(\d{3})"" nationalPrefixFormattingRule=""$NP$FG"">
          <leadingDigits>80</leadingDigits>
          <format>$1 $2 $3 $4</format>
        </numberFormat>
        <!-- 11-12 digit mobile numbers -->
        <numberFormat pattern=""(\d{3})(\d{4})(\d{4,5})"" nationalPrefixFormattingRule=""$NP$FG"">
          <leadingDigits>8</leadingDigits>
          <format>$1-$2-$3</format>
        </numberFormat>
        <!-- Format for 001803 toll free numbers. -->
        <numberFormat pattern=""(\d{3})(\d{3})(\d{3})(\d{2,8})"">
          <leadingDigits>001</leadingDigits>
          <format>$1 $2 $3 $4</format>
          <intlFormat>NA</intlFormat>
        </numberFormat>
        <!-- Format for 13 digit ITFS numbers. -->
        <numberFormat pattern=""(\d{2})(\d{4})(\d{3})(\d{4})"">
          <leadingDigits>0</leadingDigits>
          <format>$1 $2 $3 $4</format>
          <intlFormat>NA</intlFormat>
        </numberFormat>
      </availableFormats>
      <generalDesc>
        <nationalNumberPattern>
          00[1-9]\d{9,14}|
          (?:
            [1-36]|
            8\d{5}
          )\d{6}|
          00\d{9}|
          [1-9]\d{8,10}|
          [2-9]\d{7}
        </nationalNumberPattern>
      </generalDesc>
      <!-- 00798 ITFS numbers can't be dialled internationally. Source:
           https://support.twilio.com/hc/en-us/articles/115007579027-Toll-free-phone-number-restrictions-and-limitations -->
      <noInternationalDialling>
        <possibleLengths national=""[10-17]""/>
        <nationalNumberPattern>
          001803\d{5,11}|
          (?:
            007803\d|
            8071
          )\d{6}
        </nationalNumberPattern>
      </noInternationalDialling>
      <!-- Area codes taken fr";
   "om wikipedia, with missing ones added fr";
   "om
           http://www.telkom.co.id/customer-services/area-and-country-code/?type=area.
           We also added 0770 after user feedback because it seems to be used on Bintan island.
";
   "           Where known, fixed mobile prefixes have been represented as Mobile. -->
      <!-- Very short (5/6 digit) lo";
   "cal numbers in Jakarta seem to be special cases for various
           well known companies (Mc Donalds, KFC etc...). Some of these are listed in:
           http://cms.binus.edu/datapage/file/io/Spring2014SE/International_Student_Handbook_BINUS.pdf
           There seem to be numbers of this length for area code 22 as well based on numbers found
           online. -->
      <!-- The ITU doc is outdated (2001), and many numbers of different lengths were supported
           here based on valid numbers found and user report. -->
      <fixedLine>
        <possibleLengths national=""[7-11]"" localOnly=""5,6""/>
        <exampleNumber>218350123</exampleNumber>
        <nationalNumberPattern>
          2[124]\d{7,8}|
          619\d{8}|
          2(?:
            1(?:
              14|
              500
            )|
            2\d{3}
          )\d{3}|
          61\d{5,8}|
          (?:
            2(?:
              [35][1-4]|
              6[0-8]|
              7[1-6]|
              8\d|
              9[1-8]
            )|
            3(?:
              1|
              [25][1-8]|
              3[1-68]|
              4[1-3]|
              6[1-3568]|
              7[0-469]|
              8\d
            )|
            4(?:
              0[1-589]|
              1[01347-9]|
              2[0-36-8]|
              3[0-24-68]|
              43|
              5[1-378]|
              6[1-5]|
              7[134]|
              8[1245]
            )|
            5(?:
              1[1-35-9]|
              2[25-8]|
              3[124-9]|
              4[1-3589]|
              5[1-46]|
              6[1-8]
            )|
            6(?:
              [25]\d|
              3[1-69]|
              4[1-6]
            )|
            7(?:
              02|
              [125][1-9]|
              [36]\d|
              4[1-8]|
              7[0-36-9]
            )|
            9(?:
";
   "              0[12]|
              1[013-8]|
              2[0-479]|
              5[125-8]|
              6[23679]|
              7[159]|
              8[01346]
            )
          )\d{5,8}
        </nationalNumberPattern>
      </fixedLine>
      <mobile>
        <possibleLengths national=""[9-12]""/>
        <exampleNumber>812345678</exampleNumber>
        <nationalNumberPattern>8[1-35-9]\d{7,10}</nationalNumberPattern>
      </mobile>
      <tollFree>
        <possibleLengths national=""[8-17]""/>
        <exampleNumber>8001234567</exampleNumber>
        <nationalNumberPattern>
          00(?:
            1803\d{5,11}|
            7803\d{7}
          )|
          (?:
            177\d|
            800
          )\d{5,7}
        </nationalNumberPattern>
      </tollFree>
      <!-- The information below is provided by an Indonesian -->
      <premiumRate>
        <possibleLengths national=""10""/>
        <exampleNumber>8091234567</exampleNumber>
        <nationalNumberPattern>809\d{7}</nationalNumberPattern>
      </premiumRate>
      <sharedCost>
        <possibleLengths national=""10""/>
        <exampleNumber>8041234567</exampleNumber>
        <nationalNumberPattern>804\d{7}</nationalNumberPattern>
      </sharedCost>
      <uan>
        <possibleLengths national=""7,10""/>
        <exampleNumber>8071123456</exampleNumber>
        <nationalNumberPattern>
          (?:
            1500|
            8071\d{3}
          )\d{3}
        </nationalNumberPattern>
      </uan>
    </territory>"];
  ["

    <!-- Ireland (IE) -->
    <!-- http://www.comreg.ie/licensing_and_services/numbering_plan_for_ireland.552.440.html -->
    <!-- http://www.comreg.ie/_fileupload/publications/ComReg1119.pdf -->
    <territory id=""IE"" countryCode=""353"" internationalPrefix=""00"" nationalPrefix=""0""
               mobileNumberPortableRegion=""true"">
      <availableFormats>
        <numberFormat pattern=""(\d{2})(\d{5})"" nationalPrefixFormattingRule=""($NP$FG)"">
          <leadingDigits>
            2[24-9]|
            47|
            58|
            6[237-9]|
            9[35-9]
          </leadingDigits>
          <format>$1 $2</format>
        </numberFormat>
        <numberFormat pattern=""(\d{3})(\d{5})"" nationalPrefixFormattingRule=""($NP$FG)"">
          <leadingDigits>[45]0</leadingDigits>
          <format>$1 $2</format>
        </numberFormat>
        <numberFormat pattern=""(\d)(\d{3,4})(\d{4})"" nationalPrefixFormattingRule=""($NP$FG)"">
          <leadingDigits>1</leadingDigits>
          <format>$1 $2 $3</format>
        </numberFormat>
        <numberFormat pattern=""(\d{2})(\d{3})(\d{3,4})"" nationalPrefixFormattingRule=""($NP$FG)"">
          <leadingDigits>
            [2569]|
            4[1-69]|
            7[14]
          </leadingDigits>
          <format>$1 $2 $3</format>
        </numberFormat>
        <numberFormat pattern=""(\d{3})(\d{3})(\d{3})"" nationalPrefixFormattingRule=""$NP$FG"">
          <leadingDigits>70</leadingDigits>
          <format>$1 $2 $3</format>
        </numberFormat>
        <numberFormat pattern=""(\d{3})(\d{3})(\d{3})"" nationalPrefixFormattingRule=""($NP$FG)"">
          <leadingDigits>81</leadingDigits>
          <format>$1 $2 $3</format>
        </numberFormat>
        <numberFormat pattern=""(\d{2})(\d{3})(\d{4})"" nationalPrefixFormattingRule=""$NP$FG"">
          <leadingDigits>[78]</leadingDigits>
          <format>$1 $2 $3</format>
        </numberFormat>
        <numberFormat pattern=""(\d{4})(\d{3})(\d{3})"">
          <leadingDigits>1</leadingDigits>
";
   "          <format>$1 $2 $3</format>
        </numberFormat>
        <numberFormat pattern=""(\d{2})(\d{4})(\d{4})"" nationalPrefixFormattingRule=""($NP$FG)"">
          <leadingDigits>4</leadingDigits>
          <format>$1 $2 $3</format>
        </numberFormat>
        <!-- Voicemail numbers: same as mobile prefixes but the third digit is always 5. Formatting
             done like this to differentiate fr";
   "om mobile numbers (which are shorter), and based on
             a couple of examples found online. -->
        <numberFormat pattern=""(\d{2})(\d)(\d{3})(\d{4})"" nationalPrefixFormattingRule=""$NP$FG"">
          <leadingDigits>8</leadingDigits>
          <format>$1 $2 $3 $4</format>
        </numberFormat>
      </availableFormats>
      <generalDesc>
        <nationalNumberPattern>
          (?:
            1\d|
            [2569]
          )\d{6,8}|
          4\d{6,9}|
          7\d{8}|
          8\d{8,9}
        </nationalNumberPattern>
      </generalDesc>
      <noInternationalDialling>
        <possibleLengths national=""10""/>
        <nationalNumberPattern>18[59]0\d{6}</nationalNumberPattern>
      </noInternationalDialling>
      <!-- We allow 6-7 digit subscriber numbers for the 021 area code since that seems to be
           reflected by the numbers in the Yellow Pages. Another peculiarity is that 048 actually
           replaces 00 44 28 when Irish people dial, allowing them to easily dial Northern
           Ireland. We support these numbers here, although technically they are numbers for the
           UK. -->
      <fixedLine>
        <possibleLengths national=""[7-10]"" localOnly=""5,6""/>
        <exampleNumber>2212345</exampleNumber>
        <nationalNumberPattern>
          (?:
            1\d|
            21
          )\d{6,7}|
          (?:
            2[24-9]|
            4(?:
              0[24]|
              5\d|
              7
            )|
            5(?:
              0[45]|
              1\d|
              8
            )|
            6(?:
              1\d|
";
   "              [237-9]
            )|
            9(?:
              1\d|
              [35-9]
            )
          )\d{5}|
          (?:
            23|
            4(?:
              [1-469]|
              8\d
            )|
            5[23679]|
            6[4-6]|
            7[14]|
            9[04]
          )\d{7}
        </nationalNumberPattern>
      </fixedLine>
      <mobile>
        <possibleLengths national=""9""/>
        <exampleNumber>850123456</exampleNumber>
        <nationalNumberPattern>
          8(?:
            22|
            [35-9]\d
          )\d{6}
        </nationalNumberPattern>
      </mobile>
      <tollFree>
        <possibleLengths national=""10""/>
        <exampleNumber>1800123456</exampleNumber>
        <nationalNumberPattern>1800\d{6}</nationalNumberPattern>
      </tollFree>
      <premiumRate>
        <possibleLengths national=""10""/>
        <exampleNumber>1520123456</exampleNumber>
        <nationalNumberPattern>
          15(?:
            1[2-8]|
            [2-8]0|
            9[089]
          )\d{6}
        </nationalNumberPattern>
      </premiumRate>
      <sharedCost>
        <possibleLengths national=""10""/>
        <exampleNumber>1850123456</exampleNumber>
        <nationalNumberPattern>18[59]0\d{6}</nationalNumberPattern>
      </sharedCost>
      <personalNumber>
        <possibleLengths national=""9""/>
        <exampleNumber>700123456</exampleNumber>
        <nationalNumberPattern>700\d{6}</nationalNumberPattern>
      </personalNumber>
      <voip>
        <possibleLengths national=""9""/>
        <exampleNumber>761234567</exampleNumber>
        <nationalNumberPattern>76\d{7}</nationalNumberPattern>
      </voip>
      <uan>
        <possibleLengths national=""9""/>
        <exampleNumber>818123456</exampleNumber>
        <nationalNumberPattern>818\d{6}</nationalNumberPattern>
      </uan>
      <!-- These start with mobile prefixes, and then have the digit 5 inserted, before the rest
           of the number. -->
      <voicemail>
";
   "        <possibleLengths national=""10""/>
        <exampleNumber>8551234567</exampleNumber>
        <nationalNumberPattern>
          88210[1-9]\d{4}|
          8(?:
            [35-79]5\d\d|
            8(?:
              [013-9]\d\d|
              2(?:
                [01][1-9]|
                [2-9]\d
              )
            )
          )\d{5}
        </nationalNumberPattern>
      </voicemail>
    </territory>"];
  ["

    <!-- Israel (IL) -->
    <!-- Formatting practice following wikipedia, and government sites. -->
    <!-- in Hebrew -->
    <!-- http://www.itu.int/oth/T020200006A/en -->
    <!-- http://en.wikipedia.org/wiki/%2B972 -->
    <!-- http://he.wikipedia.org/wiki/%D7%A7%D7%99%D7%93%D7%95%D7%9E%D7%AA_%D7%98%D7%9C%D7%A4%D7%95%D7%9F_%D7%91%D7%99%D7%A9%D7%A8%D7%90%D7%9C -->
    <!-- https://data.gov.il/he/datasets/tikshoret/israel-numbering-plan/74b44725-d8cc-4ae9-ba08-2c40a61ab68e -->
    <territory id=""IL"" countryCode=""972"" internationalPrefix=""0(?:0|1[2-9])"" nationalPrefix=""0""
               mobileNumberPortableRegion=""true"">
      <availableFormats>
        <!-- Short toll-free numbers (for hospitals). -->
        <numberFormat pattern=""(\d{4})(\d{3})"">
          <leadingDigits>125</leadingDigits>
          <format>$1-$2</format>
        </numberFormat>
        <!-- 8-digit premium rate. -->
        <numberFormat pattern=""(\d{4})(\d{2})(\d{2})"">
          <leadingDigits>121</leadingDigits>
          <format>$1-$2-$3</format>
        </numberFormat>
        <!-- Fixed line. -->
        <numberFormat pattern=""(\d)(\d{3})(\d{4})"" nationalPrefixFormattingRule=""$NP$FG"">
          <leadingDigits>[2-489]</leadingDigits>
          <format>$1-$2-$3</format>
        </numberFormat>
        <!-- Mobile and VOIP. -->
        <numberFormat pattern=""(\d{2})(\d{3})(\d{4})"" nationalPrefixFormattingRule=""$NP$FG"">
          <leadingDigits>[57]</leadingDigits>
          <format>$1-$2-$3</format>
        </numberFormat>
        <!-- 10-digit premium rate. -->
        <numberFormat pattern=""(\d{4})(\d{3})(\d{3})"">
          <leadingDigits>12</leadingDigits>
          <format>$1-$2-$3</format>
        </numberFormat>
        <!-- Universal access (UAN). -->
        <numberFormat pattern=""(\d{4})(\d{6})"">
          <leadingDigits>159</leadingDigits>
          <format>$1-$2</format>
        </numberFormat>
        <!-- Va";
   "riable cost (premium rate, toll free etc.) -->
        <numberFormat pattern=""(\d)(\d{3})(\d{3})(\d{3})"">
";
   "          <leadingDigits>1[7-9]</leadingDigits>
          <format>$1-$2-$3-$4</format>
        </numberFormat>
        <!-- Format is fr";
   "om http://everything.explained.today/Telephone_numbers_in_Israel/
             These seem to be ""mailbox"" services where you dial ""service prefix"" + ""personal ID""
             (maybe a phone number) which is why they are formatted as two separate numbers.
             Note that 153 prefix might be an M2M number (it's listed as a ""fax box"" service). -->
        <numberFormat pattern=""(\d{3})(\d{1,2})(\d{3})(\d{4})"">
          <leadingDigits>15</leadingDigits>
          <format>$1-$2 $3-$4</format>
        </numberFormat>
      </availableFormats>
      <generalDesc>
        <nationalNumberPattern>
          1\d{6}(?:
            \d{3,5}
          )?|
          [57]\d{8}|
          [1-489]\d{7}
        </nationalNumberPattern>
      </generalDesc>
      <noInternationalDialling>
        <possibleLengths national=""10""/>
        <nationalNumberPattern>1700\d{6}</nationalNumberPattern>
      </noInternationalDialling>
      <!-- ITU doc states that 153 + NDC (either mobile or fixed-line) + SN corresponds to fax
           mail. As we do not have separate a fax category, fixedLine is the closest match and
           consistent with some other countries. For maintainability, only NDC lengths are
           mentioned: one digit for fixed-line and two for mobile as per ITU. -->
      <fixedLine>
        <possibleLengths national=""8,11,12"" localOnly=""7""/>
        <exampleNumber>21234567</exampleNumber>
        <nationalNumberPattern>
          153\d{8,9}|
          29[1-9]\d{5}|
          (?:
            2[0-8]|
            [3489]\d
          )\d{6}
        </nationalNumberPattern>
      </fixedLine>
      <!-- The ITU document has only some of these prefixes - wikipedia lists more. We are fairly
           sure wikipedia is accurate based on news coverage of the launch of these numbers. Also
           added 5570, 5571, and 5594 prefixes based on confirmations fr";
   "om the carriers. 559[23]
";
   "           ranges belong to Telzar carrier as per confirmation fr";
   "om them. Prefix 5527 is added
           based on user report. -->
      <mobile>
        <possibleLengths national=""9""/>
        <exampleNumber>502345678</exampleNumber>
        <nationalNumberPattern>
          55(?:
            4(?:
              0[0-3]|
              [16]0
            )|
            57[0-289]
          )\d{4}|
          5(?:
            (?:
              [0-2][02-9]|
              [36]\d|
              [49][2-9]|
              8[3-7]
            )\d|
            5(?:
              01|
              2\d|
              3[0-3]|
              4[3-5]|
              5[0-25689]|
              6[6-8]|
              7[0-267]|
              8[7-9]|
              9[1-9]
            )
          )\d{5}
        </nationalNumberPattern>
      </mobile>
      <!-- Online 1-809 numbers now classify themselves as ""toll-free"". -->
      <tollFree>
        <possibleLengths national=""7,10""/>
        <exampleNumber>1800123456</exampleNumber>
        <nationalNumberPattern>
          1(?:
            255|
            80[019]\d{3}
          )\d{3}
        </nationalNumberPattern>
      </tollFree>
      <!-- Peculiarly, one source states that 1956 and 1957 are the new premium rate prefixes.
           However, no online numbers starting with these prefixes can be found, and this data
           is not found in any other source. -->
      <!-- 1200 and 1212 numbers are for televoting. -->
      <premiumRate>
        <possibleLengths national=""8,10""/>
        <exampleNumber>1919123456</exampleNumber>
        <nationalNumberPattern>
          1212\d{4}|
          1(?:
            200|
            9(?:
              0[0-2]|
              19|
              9\d
            )
          )\d{6}
        </nationalNumberPattern>
      </premiumRate>
      <sharedCost>
        <possibleLengths national=""10""/>
        <exampleNumber>1700123456</exampleNumber>
        <nationalNumberPattern>1700\d{6}</nationalNumberPattern>
";
   "      </sharedCost>
      <!-- These rules are a union of the wikipedia and ITU document prefixes. They are mostly
           marked as VoIP on wikipedia, but it seems they may indeed be DID (Direct Inward
           Dialing) numbers, that most people forward to VoIP numbers. -->
      <voip>
        <possibleLengths national=""9""/>
        <exampleNumber>771234567</exampleNumber>
        <nationalNumberPattern>
          7(?:
            38(?:
              [05]\d|
              8[0138]
            )|
            8(?:
              33|
              55|
              77|
              81
            )\d
          )\d{4}|
          7(?:
            18|
            2[23]|
            3[237]|
            47|
            6[258]|
            7\d|
            82|
            9[2-9]
          )\d{6}
        </nationalNumberPattern>
      </voip>
      <!-- 1-599 numbers are actually labelled ""interactive voicemail"" in the ITU document, but
           according to reports fr";
   "om businesses in Israel and the Hebrew version of the wikipedia
           page, these are actually a router for business calls, and incur a normal call cost on
           account of the caller. -->
      <uan>
        <possibleLengths national=""10""/>
        <exampleNumber>1599123456</exampleNumber>
        <nationalNumberPattern>1599\d{6}</nationalNumberPattern>
      </uan>
      <voicemail>
        <possibleLengths national=""11,12""/>
        <exampleNumber>15112340000</exampleNumber>
        <nationalNumberPattern>151\d{8,9}</nationalNumberPattern>
      </voicemail>
    </territory>"];
  ["

    <!-- Isle of Man (IM) -->
    <!-- Calling code and formatting shared with 'GB' -->
    <!-- Note that the numbers are fine-grained where needed in order to disambiguate between the
         4 regions i.e UK, Isle of Man, Jersey and Guernsey. -->
    <!-- http://static.ofcom.org.uk/static/numbering/ -->
    <!-- http://en.wikipedia.org/wiki/Telephone_numbers_in_the_United_Kingdom -->
    <territory id=""IM"" countryCode=""44"" leadingDigits=""74576|(?:16|7[56])24""
               internationalPrefix=""00"" nationalPrefix=""0""
               nationalPrefixForParsing=""([25-8]\d{5})$|0|180020""
               nationalPrefixTransformRule=""1624$1"">
      <generalDesc>
        <nationalNumberPattern>
          1624\d{6}|
          (?:
            [3578]\d|
            90
          )\d{8}
        </nationalNumberPattern>
      </generalDesc>
      <!-- Specific to IM. -->
      <!-- 1624 with 10 digits. -->
      <fixedLine>
        <possibleLengths national=""10"" localOnly=""6""/>
        <exampleNumber>1624756789</exampleNumber>
        <nationalNumberPattern>
          1624(?:
            230|
            [5-8]\d\d
          )\d{3}
        </nationalNumberPattern>
      </fixedLine>
      <!-- 7624[0-4689] numbers could be mobile or paging. However, more evidence and example
           numbers show these are mobile in practice. -->
      <mobile>
        <possibleLengths national=""10""/>
        <exampleNumber>7924123456</exampleNumber>
        <nationalNumberPattern>
          76245[06]\d{4}|
          7(?:
            4576|
            [59]24\d|
            624[0-4689]
          )\d{5}
        </nationalNumberPattern>
      </mobile>
      <!-- 808 162 with 10 digits. -->
      <tollFree>
        <possibleLengths national=""10""/>
        <exampleNumber>8081624567</exampleNumber>
        <nationalNumberPattern>808162\d{4}</nationalNumberPattern>
      </tollFree>
      <!-- 844 0[49]0 6, 845 624, 870 624, 872 299, 900 624, 901 624, 906 624, 907 624 with 10
           digits. -->
";
   "      <premiumRate>
        <possibleLengths national=""10""/>
        <exampleNumber>9016247890</exampleNumber>
        <nationalNumberPattern>
          8(?:
            440[49]06|
            72299\d
          )\d{3}|
          (?:
            8(?:
              45|
              70
            )|
            90[0167]
          )624\d{4}
        </nationalNumberPattern>
      </premiumRate>
      <!-- Other numbers as per GB. -->
      <personalNumber>
        <possibleLengths national=""10""/>
        <exampleNumber>7012345678</exampleNumber>
        <nationalNumberPattern>70\d{8}</nationalNumberPattern>
      </personalNumber>
      <voip>
        <possibleLengths national=""10""/>
        <exampleNumber>5612345678</exampleNumber>
        <nationalNumberPattern>56\d{8}</nationalNumberPattern>
      </voip>
      <!-- 308 162, 33d, 344 040 6, 344 090 6, 345 624, 370 624, 372 299, 55 with 10 digits. -->
      <uan>
        <possibleLengths national=""10""/>
        <exampleNumber>5512345678</exampleNumber>
        <nationalNumberPattern>
          3440[49]06\d{3}|
          (?:
            3(?:
              08162|
              3\d{4}|
              45624|
              7(?:
                0624|
                2299
              )
            )|
            55\d{4}
          )\d{4}
        </nationalNumberPattern>
      </uan>
    </territory>"];
  ["

    <!-- India (IN) -->
    <!-- http://www.itu.int/oth/T0202000063/en -->
    <!-- http://en.wikipedia.org/wiki/%2B91 -->
    <!-- http://www.bsnl.co.in -->
    <!-- http://dq.ndc.bsnl.co.in/bsnl-web/stdSearch.seam -->
    <!-- http://www.dot.gov.in/access-services/allotment-msc-codes -->
    <territory id=""IN"" countryCode=""91"" internationalPrefix=""00"" nationalPrefix=""0""
               mobileNumberPortableRegion=""true"">
      <availableFormats>
        <!-- 7-digit ""short"" numbers. -->
        <numberFormat pattern=""(\d{7})"">
          <leadingDigits>575</leadingDigits>
          <format>$1</format>
          <intlFormat>NA</intlFormat>
        </numberFormat>
        <!-- 8-digit ""short"" numbers (optionally diallable with a national prefix). -->
        <numberFormat pattern=""(\d{8})"" nationalPrefixOptionalWhenFormatting=""true"">
          <leadingDigits>
            5(?:
              0|
              2[23]|
              3[03]|
              [67]1|
              88
            )
          </leadingDigits>
          <leadingDigits>
            5(?:
              0|
              2(?:
                21|
                3
              )|
              3(?:
                0|
                3[23]
              )|
              616|
              717|
              888
            )
          </leadingDigits>
          <leadingDigits>
            5(?:
              0|
              2(?:
                21|
                3
              )|
              3(?:
                0|
                3[23]
              )|
              616|
              717|
              8888
            )
          </leadingDigits>
          <format>$1</format>
        </numberFormat>
        <!-- 8,9-digit toll free numbers -->
        <numberFormat pattern=""(\d{4})(\d{4,5})"" nationalPrefixOptionalWhenFormatting=""true"">
          <leadingDigits>180</leadingDigits>
          <leadingDigits>1800</leadingDigits>
          <format>$1 $2</format>
        </numberFormat>
        <!-- 10 digit UAN numbers -->
";
   "        <numberFormat pattern=""(\d{3})(\d{3})(\d{4})"" nationalPrefixOptionalWhenFormatting=""true"">
          <leadingDigits>140</leadingDigits>
          <format>$1 $2 $3</format>
        </numberFormat>
        <!-- 2-digit area codes. -->
        <numberFormat pattern=""(\d{2})(\d{4})(\d{4})"" nationalPrefixFormattingRule=""$NP$FG""
                      nationalPrefixOptionalWhenFormatting=""true"">
          <leadingDigits>
            11|
            2[02]|
            33|
            4[04]|
            79[1-7]|
            80[2-46]
          </leadingDigits>
          <leadingDigits>
            11|
            2[02]|
            33|
            4[04]|
            79(?:
              [1-6]|
              7[19]
            )|
            80(?:
              [2-4]|
              6[0-589]
            )
          </leadingDigits>
          <leadingDigits>
            11|
            2[02]|
            33|
            4[04]|
            79(?:
              [124-6]|
              3(?:
                [02-9]|
                1[0-24-9]
              )|
              7(?:
                1|
                9[1-6]
              )
            )|
            80(?:
              [2-4]|
              6[0-589]
            )
          </leadingDigits>
          <format>$1 $2 $3</format>
        </numberFormat>
        <!-- 3-digit area codes. -->
        <numberFormat pattern=""(\d{3})(\d{3})(\d{4})"" nationalPrefixFormattingRule=""$NP$FG""
                      nationalPrefixOptionalWhenFormatting=""true"">
          <leadingDigits>
            1(?:
              2[0-249]|
              3[0-25]|
              4[145]|
              [68]|
              7[1257]
            )|
            2(?:
              1[257]|
              3[013]|
              4[01]|
              5[0137]|
              6[0158]|
              78|
              8[1568]
            )|
            3(?:
              26|
              4[1-3]|
              5[34]|
              6[01489]|
              7[02-46]|
              8[159]
";
   "            )|
            4(?:
              1[36]|
              2[1-47]|
              5[12]|
              6[0-26-9]|
              7[0-24-9]|
              8[013-57]|
              9[014-7]
            )|
            5(?:
              1[025]|
              22|
              [36][25]|
              4[28]|
              5[12]|
              [78]1
            )|
            6(?:
              12|
              [2-4]1|
              5[17]|
              6[13]|
              80
            )|
            7(?:
              12|
              3[134]|
              61|
              88
            )|
            8(?:
              16|
              2[014]|
              3[126]|
              6[136]|
              7[078]|
              8[34]|
              91
            )|
            (?:
              43|
              59|
              75
            )[15]|
            (?:
              1[59]|
              29|
              67
            )[14]
          </leadingDigits>
          <leadingDigits>
            1(?:
              2[0-24]|
              3[0-25]|
              4[145]|
              [59][14]|
              6[1-9]|
              7[1257]|
              8[1-57-9]
            )|
            2(?:
              1[257]|
              3[013]|
              4[01]|
              5[0137]|
              6[058]|
              78|
              8[1568]|
              9[14]
            )|
            3(?:
              26|
              4[1-3]|
              5[34]|
              6[01489]|
              7[02-46]|
              8[159]
            )|
            4(?:
              1[36]|
              2[1-47]|
              3[15]|
              5[12]|
              6[0-26-9]|
              7[0-24-9]|
              8[013-57]|
              9[014-7]
            )|
            5(?:
              1[025]|
              22|
              [36][25]|
              4[28]|
              [578]1|
              9[15]
            )|
            674|
            7(?:
              (?:
                3[34]|
";
   "                5[15]
              )[2-6]|
              61[346]|
              88[0-8]
            )|
            8(?:
              70[2-6]|
              84[235-7]|
              91[3-7]
            )|
            (?:
              1(?:
                29|
                60|
                8[06]
              )|
              261|
              552|
              6(?:
                12|
                [2-47]1|
                5[17]|
                6[13]|
                80
              )|
              7(?:
                12|
                31
              )|
              8(?:
                16|
                2[014]|
                3[126]|
                6[136]|
                7[78]|
                83
              )
            )[2-7]
          </leadingDigits>
          <leadingDigits>
            1(?:
              2[0-24]|
              3[0-25]|
              4[145]|
              [59][14]|
              6[1-9]|
              7[1257]|
              8[1-57-9]
            )|
            2(?:
              1[257]|
              3[013]|
              4[01]|
              5[0137]|
              6[058]|
              78|
              8[1568]|
              9[14]
            )|
            3(?:
              26|
              4[1-3]|
              5[34]|
              6[01489]|
              7[02-46]|
              8[159]
            )|
            4(?:
              1[36]|
              2[1-47]|
              3[15]|
              5[12]|
              6[0-26-9]|
              7[0-24-9]|
              8[013-57]|
              9[014-7]
            )|
            5(?:
              1[025]|
              22|
              [36][25]|
              4[28]|
              [578]1|
              9[15]
            )|
            6(?:
              12(?:
                [2-6]|
                7[0-8]
              )|
              74[2-7]
            )|
            7(?:
              3171|
              5[15][2-6]|
              61[346]|
              88(?:
                [2-7]|
";
   "                82
              )
            )|
            8(?:
              70[2-6]|
              84(?:
                [2356]|
                7[19]
              )|
              91(?:
                [3-6]|
                7[19]
              )
            )|
            73[134][2-6]|
            8(?:
              16|
              2[014]|
              3[126]|
              6[136]|
              7[78]|
              83
            )(?:
              [2-6]|
              7[19]
            )|
            (?:
              1(?:
                29|
                60|
                8[06]
              )|
              261|
              552|
              6(?:
                [2-4]1|
                5[17]|
                6[13]|
                7(?:
                  1|
                  4[0189]
                )|
                80
              )|
              7(?:
                12|
                88[01]
              )
            )[2-7]
          </leadingDigits>
          <format>$1 $2 $3</format>
        </numberFormat>
        <!-- 4-digit area codes. -->
        <numberFormat pattern=""(\d{4})(\d{3})(\d{3})"" nationalPrefixFormattingRule=""$NP$FG""
                      nationalPrefixOptionalWhenFormatting=""true"">
          <leadingDigits>
            1(?:
              [2-479]|
              5[0235-9]
            )|
            [2-5]|
            6(?:
              1[1358]|
              2[2457-9]|
              3[2-5]|
              4[235-7]|
              5[2-689]|
              6[24578]|
              7[235689]|
              8[1-6]
            )|
            7(?:
              1[013-9]|
              3[129]|
              5[29]|
              6[02-5]|
              70
            )|
            807
          </leadingDigits>
          <leadingDigits>
            1(?:
              [2-479]|
              5[0235-9]
            )|
            [2-5]|
            6(?:
              1[1358]|
              2(?:
                [2457]|
                84|
";
   "                95
              )|
              3(?:
                [2-4]|
                55
              )|
              4[235-7]|
              5[2-689]|
              6[24578]|
              7(?:
                [23569]|
                8[0-57-9]
              )|
              8[1-6]
            )|
            7(?:
              1(?:
                [013-8]|
                9[6-9]
              )|
              3(?:
                17|
                2[0-49]|
                9[2-57]
              )|
              5(?:
                2[1-3]|
                9[0-6]
              )|
              6(?:
                0[5689]|
                2[5-9]|
                3[02-8]|
                4|
                5[0-367]
              )|
              70[13-7]
            )|
            807[19]
          </leadingDigits>
          <leadingDigits>
            1(?:
              [2-479]|
              5(?:
                [0236-9]|
                5[013-9]
              )
            )|
            [2-5]|
            6(?:
              2(?:
                84|
                95
              )|
              355|
              8(?:
                28[235-7]|
                3
              )
            )|
            73179|
            807(?:
              1|
              9[1-3]
            )|
            (?:
              1552|
              6(?:
                (?:
                  1[1358]|
                  2[2457]|
                  3[2-4]|
                  4[235-7]|
                  5[2-689]|
                  6[24578]
                )\d|
                7(?:
                  [23569]\d|
                  8[0-57-9]
                )|
                8(?:
                  [14-6]\d|
                  2[0-79]
                )
              )|
              7(?:
                1(?:
                  [013-8]\d|
                  9[6-9]
                )|
                3(?:
                  2[0-49]|
                  9[2-57]
                )|
                5(?:
";
   "                  2[1-3]|
                  9[0-6]
                )|
                6(?:
                  0[5689]|
                  2[5-9]|
                  3[02-8]|
                  4\d|
                  5[0-367]
                )|
                70[13-7]
              )
            )[2-7]
          </leadingDigits>
          <format>$1 $2 $3</format>
        </numberFormat>
        <!-- Mobile format (this can in";
   "clude some fixed-line ranges due to limited precision
             in some ranges). -->
        <numberFormat pattern=""(\d{5})(\d{5})"" nationalPrefixFormattingRule=""$NP$FG""
                      nationalPrefixOptionalWhenFormatting=""true"">
          <leadingDigits>
            16|
            [6-9]
          </leadingDigits>
          <format>$1 $2</format>
        </numberFormat>
        <!-- 10-12 digit toll free and shared cost numbers. -->
        <numberFormat pattern=""(\d{4})(\d{2,4})(\d{4})"" nationalPrefixOptionalWhenFormatting=""true"">
          <leadingDigits>18[06]</leadingDigits>
          <leadingDigits>18[06]0</leadingDigits>
          <format>$1 $2 $3</format>
        </numberFormat>
        <!-- 13-digit ITFS -->
        <numberFormat pattern=""(\d{3})(\d{3})(\d{3})(\d{4})"">
          <leadingDigits>0</leadingDigits>
          <format>$1 $2 $3 $4</format>
          <intlFormat>NA</intlFormat>
        </numberFormat>
        <!-- 13 digit toll free and premium rate numbers -->
        <numberFormat pattern=""(\d{4})(\d{3})(\d{3})(\d{3})""
                      nationalPrefixOptionalWhenFormatting=""true"">
          <leadingDigits>18</leadingDigits>
          <format>$1 $2 $3 $4</format>
        </numberFormat>
      </availableFormats>
      <generalDesc>
        <nationalNumberPattern>
          (?:
            000800|
            [2-9]\d\d
          )\d{7}|
          1\d{7,12}
        </nationalNumberPattern>
      </generalDesc>
      <noInternationalDialling>
        <possibleLengths national=""[8-13]""/>
        <nationalNumberPattern>
          1800\d{4,9}|
";
   "          (?:
            000800|
            18(?:
              03\d\d|
              6(?:
                0|
                [12]\d\d
              )
            )
          )\d{7}
        </nationalNumberPattern>
      </noInternationalDialling>
      <!-- This pattern has 3 parts: 2-digit NDCs, 3-digit NDCs, and 4-digit NDCs. This is because
           the subscriber number following NDCs always begins with the operator codes 2-7. Not all
           operator codes are available in all NDCs, but we don't maintain that level of
           granularity. 4-digit NDCs are only maintained up to 3-digit granularity, unless more is
           needed to disambiguate fr";
   "om e.g. mobile ranges. -->
      <fixedLine>
        <possibleLengths national=""10"" localOnly=""[6-8]""/>
        <exampleNumber>7410410123</exampleNumber>
        <nationalNumberPattern>
          (?:
            2717(?:
              [2-7]\d|
              95
            )|
            6828[235-7]\d
          )\d{4}|
          (?:
            170[24]|
            280[13468]|
            4(?:
              20[24]|
              72[2-8]
            )|
            552[1-7]
          )\d{6}|
          (?:
            271[0-689]|
            682[0-79]|
            782[0-6]
          )[2-7]\d{5}|
          (?:
            2(?:
              [02][2-79]|
              90
            )|
            3(?:
              23|
              80
            )|
            683|
            79[1-7]
          )\d{7}|
          (?:
            11|
            33|
            4[04]|
            80
          )[2-7]\d{7}|
          (?:
            342|
            674|
            788
          )(?:
            [0189][2-7]|
            [2-7]\d
          )\d{5}|
          (?:
            1(?:
              2[0-249]|
              3[0-25]|
              4[145]|
              [59][14]|
              6[014]|
              7[1257]|
              8[01346]
            )|
            2(?:
              1[257]|
              3[013]|
              4[01]|
";
   "              5[0137]|
              6[0158]|
              78|
              8[1568]|
              9[14]
            )|
            3(?:
              26|
              4[13]|
              5[34]|
              6[01489]|
              7[02-46]|
              8[159]
            )|
            4(?:
              1[36]|
              2[1-47]|
              3[15]|
              5[12]|
              6[0-26-9]|
              7[014-9]|
              8[013-57]|
              9[014-7]
            )|
            5(?:
              1[025]|
              22|
              [36][25]|
              4[28]|
              [578]1|
              9[15]
            )|
            6(?:
              12|
              [2-47]1|
              5[17]|
              6[13]|
              80
            )|
            7(?:
              12|
              2[14]|
              3[134]|
              4[47]|
              5[15]|
              [67]1
            )|
            8(?:
              16|
              2[014]|
              3[126]|
              6[136]|
              7[078]|
              8[34]|
              91
            )
          )[2-7]\d{6}|
          (?:
            1(?:
              2[35-8]|
              3[346-9]|
              4[236-9]|
              [59][0235-9]|
              6[235-9]|
              7[34689]|
              8[257-9]
            )|
            2(?:
              1[134689]|
              3[24-8]|
              4[2-8]|
              5[25689]|
              6[2-4679]|
              7[3-79]|
              8[2-479]|
              9[235-9]
            )|
            3(?:
              01|
              1[79]|
              2[1245]|
              4[5-8]|
              5[125689]|
              6[235-7]|
              7[157-9]|
              8[2-46-8]
            )|
            4(?:
              1[14578]|
              2[5689]|
              3[2-467]|
              5[4-7]|
              6[35]|
              73|
              8[2689]|
              9[2389]
            )|
";
   "            5(?:
              [16][146-9]|
              2[14-8]|
              3[1346]|
              4[14-69]|
              5[46]|
              7[2-4]|
              8[2-8]|
              9[246]
            )|
            6(?:
              1[1358]|
              2[2457]|
              3[2-4]|
              4[235-7]|
              5[2-689]|
              6[24578]|
              7[235689]|
              8[14-6]
            )|
            7(?:
              1[013-9]|
              2[0235-9]|
              3[2679]|
              4[1-35689]|
              5[2-46-9]|
              [67][02-9]|
              8[013-7]|
              9[089]
            )|
            8(?:
              1[1357-9]|
              2[235-8]|
              3[03-57-9]|
              4[0-24-9]|
              5\d|
              6[2457-9]|
              7[1-6]|
              8[1256]|
              9[2-4]
            )
          )\d[2-7]\d{5}
        </nationalNumberPattern>
      </fixedLine>
      <!-- http://en.wikipedia.org/wiki/Mobile_telephone_numbering_in_India -->
      <!-- The document titled ""List of MSC codes"" linked off
           http://www.dot.gov.in/access-services/national-numbering-plan-2003 was helpful but last
           updated 2012 - more updates at http://www.dot.gov.in/access-services/allotment-msc-codes. -->
      <!-- A couple of additional prefixes found neither on the wikipedia page nor in the MSC
           codes list, are added because SMS messages have been successfully sent to these
           numbers. It seems almost impossible to know for some of these numbers whether they are
           land-line or mobile, since the ranges overlap. We go to a maximum depth of five where
           necessary to distinguish between mobile and fixed-line numbers. Extra prefixes added:
           6391, 7317[2-4], 7601, 768[56][1-7], 7695, 81145, 83178, 83287 and 83678. New prefixes
           were also added based on the document provided fr";
   "om mobile carriers:
           https://github.com/google/libphonenumber/issues/260 and
";
   "           https://github.com/google/libphonenumber/pull/692/ -->
      <mobile>
        <possibleLengths national=""10""/>
        <exampleNumber>8123456789</exampleNumber>
        <nationalNumberPattern>
          (?:
            6(?:
              1279|
              828[01489]
            )|
            7(?:
              887[02-9]|
              9(?:
                313|
                79[07-9]
              )
            )|
            8(?:
              079[04-9]|
              (?:
                84|
                91
              )7[02-8]
            )
          )\d{5}|
          (?:
            160[01]|
            6(?:
              (?:
                12|
                [2-4]1|
                5[17]|
                6[13]|
                80
              )[0189]|
              7(?:
                1[0189]|
                86
              )
            )|
            7(?:
              1(?:
                2[0189]|
                9[0-5]
              )|
              3(?:
                2[5-8]|
                [34][017-9]|
                9[016-9]
              )|
              5(?:
                [15][017-9]|
                2[04-9]|
                9[7-9]
              )|
              6(?:
                0[0-47]|
                1[0-257-9]|
                2[0-4]|
                3[19]|
                5[4589]
              )|
              70[0289]|
              88[089]|
              97[02-8]
            )|
            8(?:
              0(?:
                6[67]|
                7[02-8]
              )|
              70[017-9]|
              84[01489]|
              91[0-289]
            )
          )\d{6}|
          (?:
            731|
            8(?:
              16|
              2[014]|
              3[126]|
              6[136]|
              7[78]|
              83
            )
          )(?:
            [0189]\d|
            7[02-8]
          )\d{5}|
          (?:
            6(?:
              (?:
                1[1358]|
                2[2457]|
";
   "                3[2-4]|
                4[235-7]|
                5[2-689]|
                6[24578]
              )\d|
              7(?:
                [23569]\d|
                4[0189]|
                8[0-57-9]
              )|
              8(?:
                [14-6]\d|
                2[0-79]
              )
            )|
            7(?:
              1(?:
                [013-8]\d|
                9[6-9]
              )|
              3(?:
                2[0-49]|
                9[2-5]
              )|
              5(?:
                2[1-3]|
                9[0-6]
              )|
              6(?:
                0[5689]|
                2[5-9]|
                3[02-8]|
                4\d|
                5[0-367]
              )|
              70[13-7]|
              881
            )
          )[0189]\d{5}|
          (?:
            6(?:
              [09]\d|
              1[04679]|
              2[03689]|
              3[05-9]|
              4[0489]|
              50|
              6[069]|
              7[07]|
              8[7-9]
            )|
            7(?:
              [024]\d|
              3[05-8]|
              5[0346-8]|
              6[6-9]|
              7[1-9]|
              8[0-79]|
              9[089]
            )|
            8(?:
              0[01589]|
              1[0-57-9]|
              2[235-9]|
              3[03-57-9]|
              [45]\d|
              6[02457-9]|
              7[1-69]|
              8[0-25-9]|
              9[02-9]
            )|
            9\d\d
          )\d{7}
        </nationalNumberPattern>
      </mobile>
      <!-- Information gathered fr";
   "om sites such as
           http://www.surfindia.com/india-facts/toll-free-no.html and
           http://indmusings.blogspot.com/2008/09/free-help-line-numbersindia.html
           http://www.bsnl.co.in/service/telev.htm -->
      <tollFree>
        <possibleLengths national=""[8-13]""/>
        <exampleNumber>1800123456</exampleNumber>
        <nationalNumberPattern>
";
   "          000800\d{7}|
          180(?:
            0\d{4,9}|
            3\d{9}
          )
        </nationalNumberPattern>
      </tollFree>
      <!-- Only televoting numbers are covered here for now. The 900 numbers are not covered
           because they overlap with mobile, and we haven't found any real numbers online.
           1863 424 Tele-voting (Different Charge Rate) numbers are not added as there are no
           valid numbers online. -->
      <premiumRate>
        <possibleLengths national=""13""/>
        <exampleNumber>1861123456789</exampleNumber>
        <nationalNumberPattern>186[12]\d{9}</nationalNumberPattern>
      </premiumRate>
      <!-- While described as ""universal numbers"" in the numbering plan, evidence suggests
           that 1860 number are best described as shared cost. See ""Call Lo";
   "cal Service"" in:
           http://www.tatadocomo.com/corporates/toll-free.aspx -->
      <sharedCost>
        <possibleLengths national=""11""/>
        <exampleNumber>18603451234</exampleNumber>
        <nationalNumberPattern>1860\d{7}</nationalNumberPattern>
      </sharedCost>
      <!-- Telemarketing numbers: http://en.wikipedia.org/wiki/Telephone_numbers_in_India. 1869 -
           long distance UAN numbers are not added here as there are no valid numbers online. -->
      <uan>
        <possibleLengths national=""10""/>
        <exampleNumber>1409305260</exampleNumber>
        <nationalNumberPattern>140\d{7}</nationalNumberPattern>
      </uan>
    </territory>"];
  ["

    <!-- British Indian Ocean Territory (IO) -->
    <!-- http://www.itu.int/oth/T0202000039/en -->
    <territory id=""IO"" countryCode=""246"" internationalPrefix=""00"">
      <availableFormats>
        <numberFormat pattern=""(\d{3})(\d{4})"">
          <leadingDigits>3</leadingDigits>
          <format>$1 $2</format>
        </numberFormat>
      </availableFormats>
      <generalDesc>
        <nationalNumberPattern>3\d{6}</nationalNumberPattern>
      </generalDesc>
      <fixedLine>
        <possibleLengths national=""7""/>
        <exampleNumber>3709100</exampleNumber>
        <nationalNumberPattern>37\d{5}</nationalNumberPattern>
      </fixedLine>
      <mobile>
        <possibleLengths national=""7""/>
        <exampleNumber>3801234</exampleNumber>
        <nationalNumberPattern>38\d{5}</nationalNumberPattern>
      </mobile>
    </territory>"];
  ["

    <!-- Iraq (IQ) -->
    <!-- No tollFree or premiumRate information can be found. -->
    <!-- https://www.itu.int/oth/T0202000067/en -->
    <!-- http://en.wikipedia.org/wiki/%2B964 -->
    <!-- http://wtng.info/wtng-964-ik.html -->
    <territory id=""IQ"" countryCode=""964"" internationalPrefix=""00"" nationalPrefix=""0"">
      <availableFormats>
        <numberFormat pattern=""(\d)(\d{3})(\d{4})"" nationalPrefixFormattingRule=""$NP$FG"">
          <leadingDigits>1</leadingDigits>
          <format>$1 $2 $3</format>
        </numberFormat>
        <numberFormat pattern=""(\d{2})(\d{3})(\d{3,4})"" nationalPrefixFormattingRule=""$NP$FG"">
          <leadingDigits>[2-6]</leadingDigits>
          <format>$1 $2 $3</format>
        </numberFormat>
        <numberFormat pattern=""(\d{3})(\d{3})(\d{4})"" nationalPrefixFormattingRule=""$NP$FG"">
          <leadingDigits>7</leadingDigits>
          <format>$1 $2 $3</format>
        </numberFormat>
      </availableFormats>
      <generalDesc>
        <nationalNumberPattern>
          (?:
            1|
            7\d\d
          )\d{7}|
          [2-6]\d{7,8}
        </nationalNumberPattern>
      </generalDesc>
      <fixedLine>
        <possibleLengths national=""8,9"" localOnly=""6,7""/>
        <exampleNumber>12345678</exampleNumber>
        <nationalNumberPattern>
          1\d{7}|
          (?:
            2[13-5]|
            3[02367]|
            4[023]|
            5[03]|
            6[026]
          )\d{6,7}
        </nationalNumberPattern>
      </fixedLine>
      <mobile>
        <possibleLengths national=""10""/>
        <exampleNumber>7912345678</exampleNumber>
        <nationalNumberPattern>7[3-9]\d{8}</nationalNumberPattern>
      </mobile>
    </territory>"];
  ["

    <!-- Iran (IR) -->
    <!-- http://en.wikipedia.org/wiki/%2B98 -->
    <!-- http://www.itu.int/oth/T0202000066/en -->
    <!-- http://www.tct.ir/?siteid=1&pageid=195 -->
    <!-- http://118.tct.ir/citycode.htm -->
    <!-- Prefix 9950 is mentioned as Public trunk with va";
   "riable length 5 to 10 digits in ITU doc.
         As we are unaware of the exact usage of this range and no online references we are not
         adding it. -->
    <territory id=""IR"" countryCode=""98"" internationalPrefix=""00"" nationalPrefix=""0""
               mobileNumberPortableRegion=""true"">
      <availableFormats>
        <!-- Format for short UAN numbers 096XX and 096XXX (we only need this format so the
             national prefix formatting rule is inherited properly). -->
        <numberFormat pattern=""(\d{4,5})"" nationalPrefixFormattingRule=""$NP$FG"">
          <leadingDigits>96</leadingDigits>
          <format>$1</format>
        </numberFormat>
        <!-- Older 6-7 length fixed line ranges. -->
        <numberFormat pattern=""(\d{2})(\d{4,5})"" nationalPrefixFormattingRule=""$NP$FG"">
          <leadingDigits>
            (?:
              1[137]|
              2[13-68]|
              3[1458]|
              4[145]|
              5[1468]|
              6[16]|
              7[1467]|
              8[13467]
            )[12689]
          </leadingDigits>
          <format>$1 $2</format>
        </numberFormat>
        <!-- Non-geographical number (mobile and some fixed line ranges). -->
        <numberFormat pattern=""(\d{3})(\d{3})(\d{3,4})"" nationalPrefixFormattingRule=""$NP$FG"">
          <leadingDigits>9</leadingDigits>
          <format>$1 $2 $3</format>
        </numberFormat>
        <!-- 10-digit fixed line (formatting follows wikipedia). -->
        <numberFormat pattern=""(\d{2})(\d{4})(\d{4})"" nationalPrefixFormattingRule=""$NP$FG"">
          <leadingDigits>[1-8]</leadingDigits>
          <format>$1 $2 $3</format>
        </numberFormat>
      </availableFormats>
      <generalDesc>
";
   "        <nationalNumberPattern>
          [1-9]\d{9}|
          (?:
            [1-8]\d\d|
            9
          )\d{3,4}
        </nationalNumberPattern>
      </generalDesc>
      <noInternationalDialling>
        <possibleLengths national=""4,5,10""/>
        <nationalNumberPattern>
          9(?:
            4440\d{5}|
            6(?:
              0[12]|
              2[16-8]|
              3(?:
                08|
                [14]5|
                [23]|
                66
              )|
              4(?:
                0|
                80
              )|
              5[01]|
              6[89]|
              86|
              9[19]
            )
          )
        </nationalNumberPattern>
      </noInternationalDialling>
      <!-- In Summer 2014 Iran unified all fixed phone numbers in the following way:
           Each province is assigned a two digit prefix.
           Within each province, all numbers are exactly eight digits.  The expression below is
           mostly organized by province.  For each province we accept all eight-digit combinations
           and according to the ITU communication of 21.VI.2016, 94000 and 942 are also fixed-line
           prefixes, but not area codes.

           11 Mazandaran
           13 Gilan
           17 Golestan
           21 Tehran
           23 Semnan
           24 Zanjan
           25 Qom
           26 Alborz
           28 Qazvin
           31 Isfahan
           34 Kerman
           35 Yazd
           38 Chahar Mahaal and Bakhtiari
           41 East Azerbaijan
           44 West Azerbaijan
           45 Ardabil
           51 Razavi Khorasan
           54 Sistan and Baluchestan
           56 South Khorasan
           58 North Khorasan
           61 Khuzestan
           66 Lorestan
           71 Fars
           74 Kohgiluyeh and Boyer-Ahmad
           76 Hormozgan
           77 Bushehr
           81 Hamadan
           83 Kermanshah
           84 Ilam
           86 Markazi
           87 Kurdistan
           As per user reports and test results [16]\d{3} and [289]\d{3,4} shortcodes can be
";
   "           dialled by prefixing area codes. ITU mentions the length of Fixed Phone numbers are of
           5 to 10 digits. However, no valid numbers were found online are less than 10 digits,
           so there's only support for 10 digits. ITU mentions multiple ""Fixed Phone""
           categories called ""Fixed wireless Access"" and ""Fixed Non geographical"" along with plain
           ""Fixed Phone"" with geocoding details. As no more details are provided, they are
           supported as fixed-line numbers. -->
      <fixedLine>
        <possibleLengths national=""6,7,10"" localOnly=""4,5,8""/>
        <exampleNumber>2123456789</exampleNumber>
        <nationalNumberPattern>
          (?:
            1[137]|
            2[13-68]|
            3[1458]|
            4[145]|
            5[1468]|
            6[16]|
            7[1467]|
            8[13467]
          )(?:
            [03-57]\d{7}|
            [16]\d{3}(?:
              \d{4}
            )?|
            [289]\d{3}(?:
              \d(?:
                \d{3}
              )?
            )?
          )|
          94(?:
            000[09]|
            (?:
              12\d|
              30[0-2]
            )\d|
            2(?:
              [02689]0\d|
              121
            )|
            4(?:
              111|
              40\d
            )
          )\d{4}
        </nationalNumberPattern>
      </fixedLine>
      <!-- 992 prefix is been supported based on user report. -->
      <mobile>
        <possibleLengths national=""10""/>
        <exampleNumber>9123456789</exampleNumber>
        <nationalNumberPattern>
          9(?:
            (?:
              0[0-5]|
              [13]\d|
              2[0-3]
            )\d\d|
            9(?:
              [0-46]\d\d|
              5(?:
                10|
                5\d
              )|
              8(?:
                [12]\d|
                88
              )|
              9(?:
                [01359]\d|
                21|
                69|
";
   "                77|
                8[7-9]
              )
            )
          )\d{5}
        </nationalNumberPattern>
      </mobile>
      <!-- UAN ranges fr";
   "om http://118.tct.ir/necnum.htm (""096"" numbers are not shortcodes since
           they re";
   "quire the national prefix). -->
      <uan>
        <possibleLengths national=""4,5""/>
        <exampleNumber>9601</exampleNumber>
        <nationalNumberPattern>
          96(?:
            0[12]|
            2[16-8]|
            3(?:
              08|
              [14]5|
              [23]|
              66
            )|
            4(?:
              0|
              80
            )|
            5[01]|
            6[89]|
            86|
            9[19]
          )
        </nationalNumberPattern>
      </uan>
    </territory>"];
  ["

    <!-- Iceland (IS) -->
    <!-- http://www.pta.is/default.aspx?cat_id=85 -->
    <!-- http://www.pfs.is/default.aspx?cat_id=14&module_id=210&element_id=4 -->
    <!-- http://www.pfs.is/english/telecom-affairs/numbering/ -->
    <territory id=""IS"" countryCode=""354"" preferredInternationalPrefix=""00""
               internationalPrefix=""00|1(?:0(?:01|[12]0)|100)"" mobileNumberPortableRegion=""true"">
      <availableFormats>
        <numberFormat pattern=""(\d{3})(\d{4})"">
          <leadingDigits>[4-9]</leadingDigits>
          <format>$1 $2</format>
        </numberFormat>
        <numberFormat pattern=""(\d{3})(\d{3})(\d{3})"">
          <leadingDigits>3</leadingDigits>
          <format>$1 $2 $3</format>
        </numberFormat>
      </availableFormats>
      <generalDesc>
        <nationalNumberPattern>
          (?:
            38\d|
            [4-9]
          )\d{6}
        </nationalNumberPattern>
      </generalDesc>
      <!-- Including 87[23] XXXX here as it is listed as a fax number. -->
      <fixedLine>
        <possibleLengths national=""7""/>
        <exampleNumber>4101234</exampleNumber>
        <nationalNumberPattern>
          (?:
            4(?:
              1[0-24-69]|
              2[0-7]|
              [37][0-8]|
              4[0-24589]|
              5[0-68]|
              6\d|
              8[0-36-8]
            )|
            5(?:
              05|
              [156]\d|
              2[02578]|
              3[0-579]|
              4[03-7]|
              7[0-2578]|
              8[0-35-9]|
              9[013-689]
            )|
            872
          )\d{4}
        </nationalNumberPattern>
      </fixedLine>
      <!-- TETRA = TErrestrial Trunked RAdio is included under mobile. -->
      <mobile>
        <possibleLengths national=""7,9""/>
        <exampleNumber>6111234</exampleNumber>
        <nationalNumberPattern>
          (?:
            38[589]\d\d|
            6(?:
              1[1-8]|
              2[0-6]|
              3[026-9]|
              4[014679]|
";
   "              5[0159]|
              6[0-69]|
              70|
              8[06-8]|
              9\d
            )|
            7(?:
              5[057]|
              [6-9]\d
            )|
            8(?:
              2[0-59]|
              [3-69]\d|
              8[238]
            )
          )\d{4}
        </nationalNumberPattern>
      </mobile>
      <!-- The UIFN numbers mentioned in the Excel document are not yet included since no real
           numbers can be found online, and it is not clear what these are; the standard
           definition would have them under the +800 country code instead of Iceland. -->
      <tollFree>
        <possibleLengths national=""7""/>
        <exampleNumber>8001234</exampleNumber>
        <nationalNumberPattern>80[0-8]\d{4}</nationalNumberPattern>
      </tollFree>
      <premiumRate>
        <possibleLengths national=""7""/>
        <exampleNumber>9001234</exampleNumber>
        <nationalNumberPattern>
          90(?:
            0\d|
            1[5-79]|
            2[015-79]|
            3[135-79]|
            4[125-7]|
            5[25-79]|
            7[1-37]|
            8[0-35-7]
          )\d{3}
        </nationalNumberPattern>
      </premiumRate>
      <voip>
        <possibleLengths national=""7""/>
        <exampleNumber>4921234</exampleNumber>
        <nationalNumberPattern>49[0-24-79]\d{4}</nationalNumberPattern>
      </voip>
      <uan>
        <possibleLengths national=""7""/>
        <exampleNumber>8091234</exampleNumber>
        <nationalNumberPattern>809\d{4}</nationalNumberPattern>
      </uan>
      <voicemail>
        <possibleLengths national=""7""/>
        <exampleNumber>6891234</exampleNumber>
        <nationalNumberPattern>
          (?:
            689|
            8(?:
              7[18]|
              80
            )|
            95[48]
          )\d{4}
        </nationalNumberPattern>
      </voicemail>
    </territory>"];
  ["

    <!-- Italy (IT) -->
    <!-- Main region for 'VA' -->
    <!-- http://en.wikipedia.org/wiki/%2B39 -->
    <!-- https://www.agcom.it/piano-di-numerazione -->
    <territory id=""IT"" mainCountryForCode=""true"" countryCode=""39"" internationalPrefix=""00""
               mobileNumberPortableRegion=""true"">
      <availableFormats>
        <!-- Shortcodes (4-5 digits). -->
        <numberFormat pattern=""(\d{4,5})"">
          <leadingDigits>
            1(?:
              0|
              9[246]
            )
          </leadingDigits>
          <leadingDigits>
            1(?:
              0|
              9(?:
                2[2-9]|
                [46]
              )
            )
          </leadingDigits>
          <format>$1</format>
          <intlFormat>NA</intlFormat>
        </numberFormat>
        <!-- Shortcodes (6 digits). -->
        <numberFormat pattern=""(\d{6})"">
          <leadingDigits>
            1(?:
              1|
              92
            )
          </leadingDigits>
          <format>$1</format>
          <intlFormat>NA</intlFormat>
        </numberFormat>
        <numberFormat pattern=""(\d{2})(\d{4,6})"">
          <leadingDigits>0[26]</leadingDigits>
          <format>$1 $2</format>
        </numberFormat>
        <numberFormat pattern=""(\d{3})(\d{3,6})"">
          <leadingDigits>
            0[13-57-9][0159]|
            8(?:
              03|
              4[17]|
              9[2-5]
            )
          </leadingDigits>
          <leadingDigits>
            0[13-57-9][0159]|
            8(?:
              03|
              4[17]|
              9(?:
                2|
                3[04]|
                [45][0-4]
              )
            )
          </leadingDigits>
          <format>$1 $2</format>
        </numberFormat>
        <numberFormat pattern=""(\d{4})(\d{2,6})"">
          <leadingDigits>
            0(?:
              [13-579][2-46-8]|
              8[236-8]
            )
          </leadingDigits>
          <format>$1 $2</format>
";
   "        </numberFormat>
        <numberFormat pattern=""(\d{4})(\d{4})"">
          <leadingDigits>894</leadingDigits>
          <format>$1 $2</format>
        </numberFormat>
        <!-- The leading zero for fixed numbers will be prepended before the matching of these
             regular expressions. -->
        <numberFormat pattern=""(\d{2})(\d{3,4})(\d{4})"">
          <leadingDigits>
            0[26]|
            5
          </leadingDigits>
          <format>$1 $2 $3</format>
        </numberFormat>
        <numberFormat pattern=""(\d{3})(\d{3})(\d{3,4})"">
          <leadingDigits>
            1(?:
              44|
              [679]
            )|
            [378]|
            43
          </leadingDigits>
          <format>$1 $2 $3</format>
        </numberFormat>
        <numberFormat pattern=""(\d{3})(\d{3,4})(\d{4})"">
          <leadingDigits>
            0[13-57-9][0159]|
            14
          </leadingDigits>
          <format>$1 $2 $3</format>
        </numberFormat>
        <numberFormat pattern=""(\d{2})(\d{4})(\d{5})"">
          <leadingDigits>0[26]</leadingDigits>
          <format>$1 $2 $3</format>
        </numberFormat>
        <numberFormat pattern=""(\d{4})(\d{3})(\d{4})"">
          <leadingDigits>0</leadingDigits>
          <format>$1 $2 $3</format>
        </numberFormat>
        <numberFormat pattern=""(\d{3})(\d{4})(\d{4,5})"">
          <leadingDigits>[03]</leadingDigits>
          <format>$1 $2 $3</format>
        </numberFormat>
      </availableFormats>
      <generalDesc>
        <nationalNumberPattern>
          0\d{5,11}|
          1\d{8,10}|
          3(?:
            [0-8]\d{7,10}|
            9\d{7,8}
          )|
          (?:
            43|
            55|
            70
          )\d{8}|
          8\d{5}(?:
            \d{2,4}
          )?
        </nationalNumberPattern>
      </generalDesc>
      <noInternationalDialling>
        <possibleLengths national=""9""/>
        <nationalNumberPattern>848\d{6}</nationalNumberPattern>
      </noInternationalDialling>
";
   "      <!-- Maximum lengths in the ITU document are 10, but it states above that for numbers
           starting with 01, the maximum length is in fact 11. In fact, online, numbers can be
           found with other prefixes that are 11 digits long as well, so we allow it for all the
           three and four digit area codes. -->
      <fixedLine>
        <possibleLengths national=""[6-12]""/>
        <exampleNumber>0212345678</exampleNumber>
        <nationalNumberPattern>
          0(?:
            669[0-79]\d{1,6}|
            831\d{2,8}
          )|
          0(?:
            1(?:
              [0159]\d|
              [27][1-5]|
              31|
              4[1-4]|
              6[1356]|
              8[2-57]
            )|
            2\d\d|
            3(?:
              [0159]\d|
              2[1-4]|
              3[12]|
              [48][1-6]|
              6[2-59]|
              7[1-7]
            )|
            4(?:
              [0159]\d|
              [23][1-9]|
              4[245]|
              6[1-5]|
              7[1-4]|
              81
            )|
            5(?:
              [0159]\d|
              2[1-5]|
              3[2-6]|
              4[1-79]|
              6[4-6]|
              7[1-578]|
              8[3-8]
            )|
            6(?:
              [0-57-9]\d|
              6[0-8]
            )|
            7(?:
              [0159]\d|
              2[12]|
              3[1-7]|
              4[2-46]|
              6[13569]|
              7[13-6]|
              8[1-59]
            )|
            8(?:
              [0159]\d|
              2[3-578]|
              3[2356]|
              [6-8][1-5]
            )|
            9(?:
              [0159]\d|
              [238][1-5]|
              4[12]|
              6[1-8]|
              7[1-6]
            )
          )\d{2,7}
        </nationalNumberPattern>
      </fixedLine>
      <!-- User reported the existence of new 11 digit long numbers for TIM with the prefix 33X, so
           it is also supported.
";
   "           Prefix 43 is 10 digits long and is used for SMS Application To
           Person (A2P) for OTP, marketing, etc -->
      <mobile>
        <possibleLengths national=""9,10""/>
        <exampleNumber>3123456789</exampleNumber>
        <nationalNumberPattern>
          3[2-9]\d{7,8}|
          (?:
            31|
            43
          )\d{8}
        </nationalNumberPattern>
      </mobile>
      <tollFree>
        <possibleLengths national=""6,9""/>
        <exampleNumber>800123456</exampleNumber>
        <nationalNumberPattern>
          80(?:
            0\d{3}|
            3
          )\d{3}
        </nationalNumberPattern>
      </tollFree>
      <!-- Adding 0878 numbers, as per
           http://www.aduc.it/notizia/polizia+mette+allerta+sul+numero+0878_73136.php. Other
           premium prefixes are mentioned here:
           http://www.dirittodellinformatica.it/news/telefonia/agcom-blocco-permanente-prefissi-144-166-892-899-20080520241.html -->
      <premiumRate>
        <possibleLengths national=""6,[8-10]""/>
        <exampleNumber>899123456</exampleNumber>
        <nationalNumberPattern>
          (?:
            0878\d{3}|
            89(?:
              2\d|
              3[04]|
              4(?:
                [0-4]|
                [5-9]\d\d
              )|
              5[0-4]
            )
          )\d\d|
          (?:
            1(?:
              44|
              6[346]
            )|
            89(?:
              38|
              5[5-9]|
              9
            )
          )\d{6}
        </nationalNumberPattern>
      </premiumRate>
      <sharedCost>
        <possibleLengths national=""6,9""/>
        <exampleNumber>848123456</exampleNumber>
        <nationalNumberPattern>
          84(?:
            [08]\d{3}|
            [17]
          )\d{3}
        </nationalNumberPattern>
      </sharedCost>
      <personalNumber>
        <possibleLengths national=""9,10""/>
        <exampleNumber>1781234567</exampleNumber>
        <nationalNumberPattern>
";
   "          1(?:
            78\d|
            99
          )\d{6}
        </nationalNumberPattern>
      </personalNumber>
      <voip>
        <possibleLengths national=""10""/>
        <exampleNumber>5512345678</exampleNumber>
        <nationalNumberPattern>55\d{8}</nationalNumberPattern>
      </voip>
      <voicemail>
        <possibleLengths national=""11,12""/>
        <exampleNumber>33101234501</exampleNumber>
        <nationalNumberPattern>3[2-8]\d{9,10}</nationalNumberPattern>
      </voicemail>
    </territory>"];
  ["

    <!-- Jersey (JE) -->
    <!-- Calling code and formatting shared with 'GB' -->
    <!-- Note that the numbers are fine-grained where needed in order to disambiguate between the
         4 regions i.e UK, Isle of Man, Jersey and Guernsey. -->
    <!-- http://static.ofcom.org.uk/static/numbering/ -->
    <!-- http://en.wikipedia.org/wiki/Telephone_numbers_in_the_United_Kingdom -->
    <!-- http://www.jcra.je/cms3/v2/public/cmsChild.asp?pageID=1024&childID=1036 -->
    <territory id=""JE"" countryCode=""44"" internationalPrefix=""00"" nationalPrefix=""0""
               nationalPrefixForParsing=""([0-24-8]\d{5})$|0|180020""
               nationalPrefixTransformRule=""1534$1"">
      <generalDesc>
        <nationalNumberPattern>
          1534\d{6}|
          (?:
            [3578]\d|
            90
          )\d{8}
        </nationalNumberPattern>
      </generalDesc>
      <!-- Specific to JE. -->
      <!-- 1534 with 10 digits. -->
      <fixedLine>
        <possibleLengths national=""10"" localOnly=""6""/>
        <exampleNumber>1534456789</exampleNumber>
        <nationalNumberPattern>1534[0-24-8]\d{5}</nationalNumberPattern>
      </fixedLine>
      <mobile>
        <possibleLengths national=""10""/>
        <exampleNumber>7797712345</exampleNumber>
        <nationalNumberPattern>
          7(?:
            (?:
              (?:
                50|
                82
              )9|
              937
            )\d|
            7(?:
              00[378]|
              97\d
            )
          )\d{5}
        </nationalNumberPattern>
      </mobile>
      <!-- Pager numbers as per GB. -->
      <pager>
        <possibleLengths national=""10""/>
        <exampleNumber>7640123456</exampleNumber>
        <nationalNumberPattern>
          76(?:
            464|
            652
          )\d{5}|
          76(?:
            0[0-28]|
            2[356]|
            34|
            4[01347]|
            5[49]|
            6[0-369]|
            77|
            8[14]|
            9[139]
";
   "          )\d{6}
        </nationalNumberPattern>
      </pager>
      <!-- Specific to JE. -->
      <!-- 800 735, 800 781, 808 901 with 10 digits. -->
      <tollFree>
        <possibleLengths national=""10""/>
        <exampleNumber>8007354567</exampleNumber>
        <nationalNumberPattern>
          80(?:
            07(?:
              35|
              81
            )|
            8901
          )\d{4}
        </nationalNumberPattern>
      </tollFree>
      <!-- 844 405, 844 442, 844 469, 844 703, 845 041, 845 800, 870 002, 871 206, 900 665, 900 669,
           901 810, 907 107, 907 155 with 10 digits. -->
      <premiumRate>
        <possibleLengths national=""10""/>
        <exampleNumber>9018105678</exampleNumber>
        <nationalNumberPattern>
          (?:
            8(?:
              4(?:
                4(?:
                  4(?:
                    05|
                    42|
                    69
                  )|
                  703
                )|
                5(?:
                  041|
                  800
                )
              )|
              7(?:
                0002|
                1206
              )
            )|
            90(?:
              066[59]|
              1810|
              71(?:
                07|
                55
              )
            )
          )\d{4}
        </nationalNumberPattern>
      </premiumRate>
      <!-- 70 1511 with 10 digits. -->
      <personalNumber>
        <possibleLengths national=""10""/>
        <exampleNumber>7015115678</exampleNumber>
        <nationalNumberPattern>701511\d{4}</nationalNumberPattern>
      </personalNumber>
      <!-- VoIP numbers as per GB. -->
      <voip>
        <possibleLengths national=""10""/>
        <exampleNumber>5612345678</exampleNumber>
        <nationalNumberPattern>56\d{8}</nationalNumberPattern>
      </voip>
      <!-- 300 735, 300 781, 308 901, 33d, 344 405, 344 442, 344 469, 344 703, 345 041, 345 800,
           370 002, 371 206, 55 with 10 digits. -->
";
   "      <uan>
        <possibleLengths national=""10""/>
        <exampleNumber>5512345678</exampleNumber>
        <nationalNumberPattern>
          (?:
            3(?:
              0(?:
                07(?:
                  35|
                  81
                )|
                8901
              )|
              3\d{4}|
              4(?:
                4(?:
                  4(?:
                    05|
                    42|
                    69
                  )|
                  703
                )|
                5(?:
                  041|
                  800
                )
              )|
              7(?:
                0002|
                1206
              )
            )|
            55\d{4}
          )\d{4}
        </nationalNumberPattern>
      </uan>
    </territory>"];
  ["

    <!-- Jamaica (JM) -->
    <!-- Calling code and formatting shared with 'US' -->
    <!-- http://www.itu.int/oth/T020200006C/en -->
    <territory id=""JM"" countryCode=""1"" leadingDigits=""658|876"" internationalPrefix=""011""
               nationalPrefix=""1"" mobileNumberPortableRegion=""true"">
      <generalDesc>
        <nationalNumberPattern>
          (?:
            [58]\d\d|
            658|
            900
          )\d{7}
        </nationalNumberPattern>
      </generalDesc>
      <!-- Numbers have been found online for ranges 613, 62x, 63x, 656, 66[2-589]. -->
      <fixedLine>
        <possibleLengths national=""10"" localOnly=""7""/>
        <exampleNumber>8765230123</exampleNumber>
        <nationalNumberPattern>
          8766060\d{3}|
          (?:
            658(?:
              2(?:
                [5-8]\d|
                9[0-46-9]
              )|
              [3-9]\d\d
            )|
            876(?:
              52[35]|
              6(?:
                0[1-3579]|
                1[0235-9]|
                [23]\d|
                40|
                5[06]|
                6[2-589]|
                7[0-25-9]|
                8[04]|
                9[4-9]
              )|
              7(?:
                0[2-689]|
                [1-6]\d|
                8[056]|
                9[45]
              )|
              9(?:
                0[1-8]|
                1[02378]|
                [2-8]\d|
                9[2-468]
              )
            )
          )\d{4}
        </nationalNumberPattern>
      </fixedLine>
      <!-- Adding 27, 28, 299, 31, 508 and 566 as extra prefixes, as they have been found to be
           valid by sending SMSs and looking at online number lookup sites. Numbers have been
           found online for the following ranges 258, 26x, 29x, 53x, 54x, 55x, 56x. Most have
           mobile numbers online so we have put them under mobile but is possible they are a
           mixture of fixed line and mobile. -->
      <mobile>
";
   "        <possibleLengths national=""10"" localOnly=""7""/>
        <exampleNumber>8762101234</exampleNumber>
        <nationalNumberPattern>
          (?:
            6582(?:
              [0-4]\d|
              95
            )|
            876(?:
              2(?:
                0[1-9]|
                [13-9]\d|
                2[013-9]
              )|
              [348]\d\d|
              5(?:
                0[1-9]|
                [1-9]\d
              )|
              6(?:
                4[89]|
                6[67]
              )|
              7(?:
                0[07]|
                7\d|
                8[1-47-9]|
                9[0-36-9]
              )|
              9(?:
                [01]9|
                9[0579]
              )
            )
          )\d{4}
        </nationalNumberPattern>
      </mobile>
      <tollFree>
        <possibleLengths national=""10""/>
        <exampleNumber>8002123456</exampleNumber>
        <nationalNumberPattern>
          8(?:
            00|
            33|
            44|
            55|
            66|
            77|
            88
          )[2-9]\d{6}
        </nationalNumberPattern>
      </tollFree>
      <premiumRate>
        <possibleLengths national=""10""/>
        <exampleNumber>9002123456</exampleNumber>
        <nationalNumberPattern>900[2-9]\d{6}</nationalNumberPattern>
      </premiumRate>
      <!-- https://www.nationalnanpa.com/number_resource_info/5XX_codes.html -->
      <personalNumber>
        <possibleLengths national=""10""/>
        <exampleNumber>5002345678</exampleNumber>
        <nationalNumberPattern>
          52(?:
            3(?:
              [2-46-9][02-9]\d|
              5(?:
                [02-46-9]\d|
                5[0-46-9]
              )
            )|
            4(?:
              [2-478][02-9]\d|
              5(?:
                [034]\d|
                2[024-9]|
                5[0-46-9]
              )|
              6(?:
                0[1-9]|
                [2-9]\d
";
   "              )|
              9(?:
                [05-9]\d|
                2[0-5]|
                49
              )
            )
          )\d{4}|
          52[34][2-9]1[02-9]\d{4}|
          5(?:
            00|
            2[125-9]|
            3[23]|
            44|
            66|
            77|
            88
          )[2-9]\d{6}
        </nationalNumberPattern>
      </personalNumber>
    </territory>"];
  ["

    <!-- Jordan (JO) -->
    <!-- http://www.trc.gov.jo/images/stories/pdf/NNP_ver200[1].pdf?lang=english -->
    <!-- http://www.itu.int/oth/T020200006E/en -->
    <!-- http://en.wikipedia.org/wiki/%2B962 -->
    <territory id=""JO"" countryCode=""962"" internationalPrefix=""00"" nationalPrefix=""0""
               mobileNumberPortableRegion=""true"">
      <availableFormats>
        <numberFormat pattern=""(\d)(\d{3})(\d{4})"" nationalPrefixFormattingRule=""($NP$FG)"">
          <leadingDigits>
            [2356]|
            87
          </leadingDigits>
          <format>$1 $2 $3</format>
        </numberFormat>
        <numberFormat pattern=""(\d{3})(\d{5,6})"" nationalPrefixFormattingRule=""$NP$FG"">
          <leadingDigits>[89]</leadingDigits>
          <format>$1 $2</format>
        </numberFormat>
        <numberFormat pattern=""(\d{2})(\d{7})"" nationalPrefixFormattingRule=""$NP$FG"">
          <leadingDigits>70</leadingDigits>
          <format>$1 $2</format>
        </numberFormat>
        <numberFormat pattern=""(\d)(\d{4})(\d{4})"" nationalPrefixFormattingRule=""$NP$FG"">
          <leadingDigits>[47]</leadingDigits>
          <format>$1 $2 $3</format>
        </numberFormat>
      </availableFormats>
      <generalDesc>
        <nationalNumberPattern>
          (?:
            (?:
              [2689]|
              7\d
            )\d|
            32|
            427|
            53
          )\d{6}
        </nationalNumberPattern>
      </generalDesc>
      <fixedLine>
        <possibleLengths national=""8""/>
        <exampleNumber>62001234</exampleNumber>
        <nationalNumberPattern>
          87(?:
            000|
            90[01]
          )\d{3}|
          (?:
            2(?:
              6(?:
                2[0-35-9]|
                3[0-578]|
                4[24-7]|
                5[0-24-8]|
                [6-8][023]|
                9[0-3]
              )|
              7(?:
                0[1-79]|
                10|
                2[014-7]|
                3[0-689]|
";
   "                4[019]|
                5[0-3578]
              )
            )|
            32(?:
              0[1-69]|
              1[1-35-7]|
              2[024-7]|
              3\d|
              4[0-3]|
              [5-7][023]
            )|
            53(?:
              0[0-3]|
              [13][023]|
              2[0-59]|
              49|
              5[0-35-9]|
              6[15]|
              7[45]|
              8[1-6]|
              9[0-36-9]
            )|
            6(?:
              2(?:
                [05]0|
                22
              )|
              3(?:
                00|
                33
              )|
              4(?:
                0[0-25]|
                1[2-7]|
                2[0569]|
                [38][07-9]|
                4[025689]|
                6[0-589]|
                7\d|
                9[0-2]
              )|
              5(?:
                [01][056]|
                2[034]|
                3[0-57-9]|
                4[178]|
                5[0-69]|
                6[0-35-9]|
                7[1-379]|
                8[0-68]|
                9[0239]
              )
            )|
            87(?:
              20|
              7[078]|
              99
            )
          )\d{4}
        </nationalNumberPattern>
      </fixedLine>
      <mobile>
        <possibleLengths national=""9""/>
        <exampleNumber>790123456</exampleNumber>
        <nationalNumberPattern>
          (?:
            427|
            7(?:
              [78][0-25-9]|
              9\d
            )
          )\d{6}
        </nationalNumberPattern>
      </mobile>
      <pager>
        <possibleLengths national=""9""/>
        <exampleNumber>746612345</exampleNumber>
        <nationalNumberPattern>
          74(?:
            66|
            77
          )\d{5}
        </nationalNumberPattern>
      </pager>
      <tollFree>
        <possibleLengths national=""8""/>
        <exampleNumber>80012345</exampleNumber>
        <nationalNumberPattern>80\d{6}</nationalNumberPattern>
";
   "      </tollFree>
      <premiumRate>
        <possibleLengths national=""8""/>
        <exampleNumber>90012345</exampleNumber>
        <nationalNumberPattern>9\d{7}</nationalNumberPattern>
      </premiumRate>
      <sharedCost>
        <possibleLengths national=""8""/>
        <exampleNumber>85012345</exampleNumber>
        <nationalNumberPattern>85\d{6}</nationalNumberPattern>
      </sharedCost>
      <personalNumber>
        <possibleLengths national=""9""/>
        <exampleNumber>700123456</exampleNumber>
        <nationalNumberPattern>70\d{7}</nationalNumberPattern>
      </personalNumber>
      <!-- These numbers are Location Independent Services / Fixed cost according to
           http://www.trc.gov.jo -->
      <uan>
        <possibleLengths national=""8""/>
        <exampleNumber>88101234</exampleNumber>
        <nationalNumberPattern>
          8(?:
            10|
            8\d
          )\d{5}
        </nationalNumberPattern>
      </uan>
    </territory>"]].
