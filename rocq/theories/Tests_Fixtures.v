(** The files that the project keeps to try its converters with, benchmarks/dynamodb/roundtrip_* and examples/dynamodb/fixture,
    run through the program there and back, as the makefiles there do: a check of the model, not of the program. The expected
    text is the file without its white space. *)
From Verif Require Import Base U8Pool Buffer Jiter RJiter Scan Conv NormalToDdb DdbToNormal Cli.

(** The output of the program, if the status is 0. *)
Definition converted (mode : direction) (input : bytes) : option bytes :=
  match run (mkArgs mode None None false false false) 5000 (mkReader input []) None with
  | Done (d, Success) => Some d
  | _ => None
  end.
Definition next (mode : direction) (x : option bytes) : option bytes := match x with Some d => converted mode d | None => None end.

(** benchmarks/dynamodb/roundtrip_to_ddb/original-normal/all-types-normal.json *)
Definition to_all_types : bytes := (bs "{
  ""id"": ""demo-001"",
  ""stringField"": ""Hello, World!"",
  ""numberField"": 42,
  ""decimalField"": 3.14159,
  ""booleanTrue"": true,
  ""booleanFalse"": false,
  ""nullField"": null,
  ""stringArray"": [""apple"", ""banana"", ""cherry""],
  ""numberArray"": [1, 2, 3, 5, 8, 13],
  ""mixedList"": [
    ""string"",
    123,
    true,
    {
      ""nested"": ""object""
    }
  ],
  ""simpleMap"": {
    ""key1"": ""value1"",
    ""key2"": ""value2"",
    ""key3"": 999
  },
  ""nestedMap"": {
    ""level1"": {
      ""level2"": {
        ""level3"": {
          ""deepValue"": ""found it!""
        }
      }
    }
  },
  ""binaryData"": ""VGhpcyBpcyBiYXNlNjQgZW5jb2RlZCBkYXRh"",
  ""binarySet"": [
    ""Zmlyc3Q="",
    ""c2Vjb25k"",
    ""dGhpcmQ=""
  ],
  ""complexObject"": {
    ""name"": ""Complex Item"",
    ""count"": 100,
    ""active"": true,
    ""metadata"": {
      ""created"": ""2024-01-01T00:00:00Z"",
      ""updated"": ""2024-10-22T00:00:00Z""
    },
    ""items"": [
      {
        ""id"": 1,
        ""label"": ""First""
      },
      {
        ""id"": 2,
        ""label"": ""Second""
      }
    ]
  }
}
").
Definition to_all_types_compact : bytes := (bs "{""id"":""demo-001"",""stringField"":""Hello, World!"",""numberField"":42,""decimalField"":3.14159,""booleanTrue"":true,""booleanFalse"":false,""nullField"":null,""stringArray"":[""apple"",""banana"",""cherry""],""numberArray"":[1,2,3,5,8,13],""mixedList"":[""string"",123,true,{""nested"":""object""}],""simpleMap"":{""key1"":""value1"",""key2"":""value2"",""key3"":999},""nestedMap"":{""level1"":{""level2"":{""level3"":{""deepValue"":""found it!""}}}},""binaryData"":""VGhpcyBpcyBiYXNlNjQgZW5jb2RlZCBkYXRh"",""binarySet"":[""Zmlyc3Q="",""c2Vjb25k"",""dGhpcmQ=""],""complexObject"":{""name"":""Complex Item"",""count"":100,""active"":true,""metadata"":{""created"":""2024-01-01T00:00:00Z"",""updated"":""2024-10-22T00:00:00Z""},""items"":[{""id"":1,""label"":""First""},{""id"":2,""label"":""Second""}]}}
").
Example to_all_types_there_and_back : next FromDdb (converted ToDdb to_all_types) = Some to_all_types_compact.
Proof. vm_compute. reflexivity. Qed.

(** benchmarks/dynamodb/roundtrip_to_ddb/original-normal/book-normal.json *)
Definition to_book : bytes := (bs "{
  ""Id"": 103,
  ""Title"": ""Book 103 Title"",
  ""ISBN"": ""333-3333333333"",
  ""Authors"": [""Author1"", ""Author2""],
  ""Publisher"": {
    ""Name"": ""Tech Publishing House"",
    ""City"": ""New York"",
    ""Founded"": 1995
  },
  ""Price"": 2000,
  ""PageCount"": 600,
  ""Dimensions"": ""8.5 x 11.0 x 1.5"",
  ""InPublication"": false,
  ""ProductCategory"": ""Book"",
  ""Tags"": [""programming"", ""technology"", ""reference""],
  ""Ratings"": [4.5, 4.8, 5.0, 4.2],
  ""Reviews"": [
    ""Excellent reference material"",
    ""Very comprehensive"",
    ""Great for beginners""
  ],
  ""Metadata"": {
    ""CreatedAt"": ""2023-01-15T10:30:00Z"",
    ""UpdatedAt"": ""2024-06-20T14:45:00Z"",
    ""Version"": 2
  },
  ""Available"": true,
  ""Description"": null,
  ""CoverImage"": ""aVZCT1J3MEtHZ29BQUFBTlNVaEVVZ0FBQUFV""
}
").
Definition to_book_compact : bytes := (bs "{""Id"":103,""Title"":""Book 103 Title"",""ISBN"":""333-3333333333"",""Authors"":[""Author1"",""Author2""],""Publisher"":{""Name"":""Tech Publishing House"",""City"":""New York"",""Founded"":1995},""Price"":2000,""PageCount"":600,""Dimensions"":""8.5 x 11.0 x 1.5"",""InPublication"":false,""ProductCategory"":""Book"",""Tags"":[""programming"",""technology"",""reference""],""Ratings"":[4.5,4.8,5.0,4.2],""Reviews"":[""Excellent reference material"",""Very comprehensive"",""Great for beginners""],""Metadata"":{""CreatedAt"":""2023-01-15T10:30:00Z"",""UpdatedAt"":""2024-06-20T14:45:00Z"",""Version"":2},""Available"":true,""Description"":null,""CoverImage"":""aVZCT1J3MEtHZ29BQUFBTlNVaEVVZ0FBQUFV""}
").
Example to_book_there_and_back : next FromDdb (converted ToDdb to_book) = Some to_book_compact.
Proof. vm_compute. reflexivity. Qed.

(** benchmarks/dynamodb/roundtrip_to_ddb/original-normal/products-normal.json *)
Definition to_products : bytes := (bs "{""productId"":""prod-001"",""name"":""Wireless Mouse"",""category"":""Electronics"",""price"":29.99,""inStock"":true,""quantity"":150,""specs"":{""color"":""Black"",""connectivity"":""Bluetooth"",""battery"":""AAA"",""warranty"":1},""images"":[""aW1hZ2UxLnBuZw=="",""aW1hZ2UyLnBuZw==""],""tags"":[""wireless"",""bluetooth"",""ergonomic""],""ratings"":[4.5,5.0,4.0,4.8],""reviews"":null}
{""productId"":""prod-002"",""name"":""USB-C Cable"",""category"":""Accessories"",""price"":12.99,""inStock"":true,""quantity"":500,""specs"":{""length"":""6 feet"",""color"":""White"",""dataSpeed"":""10 Gbps"",""warranty"":2},""images"":[""Y2FibGUxLmpwZw==""],""tags"":[""cable"",""usb-c"",""fast-charging""],""ratings"":[5.0,5.0,4.9],""reviews"":[""Excellent quality"",""Fast charging works great""]}
").
Definition to_products_compact : bytes := (bs "{""productId"":""prod-001"",""name"":""Wireless Mouse"",""category"":""Electronics"",""price"":29.99,""inStock"":true,""quantity"":150,""specs"":{""color"":""Black"",""connectivity"":""Bluetooth"",""battery"":""AAA"",""warranty"":1},""images"":[""aW1hZ2UxLnBuZw=="",""aW1hZ2UyLnBuZw==""],""tags"":[""wireless"",""bluetooth"",""ergonomic""],""ratings"":[4.5,5.0,4.0,4.8],""reviews"":null}
{""productId"":""prod-002"",""name"":""USB-C Cable"",""category"":""Accessories"",""price"":12.99,""inStock"":true,""quantity"":500,""specs"":{""length"":""6 feet"",""color"":""White"",""dataSpeed"":""10 Gbps"",""warranty"":2},""images"":[""Y2FibGUxLmpwZw==""],""tags"":[""cable"",""usb-c"",""fast-charging""],""ratings"":[5.0,5.0,4.9],""reviews"":[""Excellent quality"",""Fast charging works great""]}
").
Example to_products_there_and_back : next FromDdb (converted ToDdb to_products) = Some to_products_compact.
Proof. vm_compute. reflexivity. Qed.

(** benchmarks/dynamodb/roundtrip_to_ddb/original-normal/users-normal.json *)
Definition to_users : bytes := (bs "{""userId"":""user-001"",""username"":""alice_smith"",""email"":""alice@example.com"",""age"":28,""isActive"":true,""roles"":[""admin"",""editor""],""favoriteNumbers"":[7,42,100],""profile"":{""firstName"":""Alice"",""lastName"":""Smith"",""bio"":""Software engineer and tech enthusiast"",""location"":{""city"":""San Francisco"",""state"":""CA"",""zipCode"":""94102""}},""preferences"":{""theme"":""dark"",""notifications"":true,""language"":""en-US""},""createdAt"":""2023-06-15T08:30:00Z"",""lastLogin"":""2024-10-20T14:22:33Z"",""tags"":[""premium"",""verified"",""early-adopter""],""score"":95.7}
{""userId"":""user-002"",""username"":""bob_jones"",""email"":""bob@example.com"",""age"":35,""isActive"":false,""roles"":[""user""],""favoriteNumbers"":[13,21],""profile"":{""firstName"":""Bob"",""lastName"":""Jones"",""bio"":null,""location"":{""city"":""Austin"",""state"":""TX"",""zipCode"":""78701""}},""preferences"":{""theme"":""light"",""notifications"":false,""language"":""en-US""},""createdAt"":""2024-01-10T12:00:00Z"",""lastLogin"":""2024-10-15T09:45:12Z"",""tags"":[""new-user""],""score"":78.3}
").
Definition to_users_compact : bytes := (bs "{""userId"":""user-001"",""username"":""alice_smith"",""email"":""alice@example.com"",""age"":28,""isActive"":true,""roles"":[""admin"",""editor""],""favoriteNumbers"":[7,42,100],""profile"":{""firstName"":""Alice"",""lastName"":""Smith"",""bio"":""Software engineer and tech enthusiast"",""location"":{""city"":""San Francisco"",""state"":""CA"",""zipCode"":""94102""}},""preferences"":{""theme"":""dark"",""notifications"":true,""language"":""en-US""},""createdAt"":""2023-06-15T08:30:00Z"",""lastLogin"":""2024-10-20T14:22:33Z"",""tags"":[""premium"",""verified"",""early-adopter""],""score"":95.7}
{""userId"":""user-002"",""username"":""bob_jones"",""email"":""bob@example.com"",""age"":35,""isActive"":false,""roles"":[""user""],""favoriteNumbers"":[13,21],""profile"":{""firstName"":""Bob"",""lastName"":""Jones"",""bio"":null,""location"":{""city"":""Austin"",""state"":""TX"",""zipCode"":""78701""}},""preferences"":{""theme"":""light"",""notifications"":false,""language"":""en-US""},""createdAt"":""2024-01-10T12:00:00Z"",""lastLogin"":""2024-10-15T09:45:12Z"",""tags"":[""new-user""],""score"":78.3}
").
Example to_users_there_and_back : next FromDdb (converted ToDdb to_users) = Some to_users_compact.
Proof. vm_compute. reflexivity. Qed.

(** benchmarks/dynamodb/roundtrip_from_ddb/original-ddb/all-types-dynamodb.json *)
Definition from_all_types : bytes := (bs "{
  ""Item"": {
    ""id"": {
      ""S"": ""demo-001""
    },
    ""stringField"": {
      ""S"": ""Hello, World!""
    },
    ""numberField"": {
      ""N"": ""42""
    },
    ""decimalField"": {
      ""N"": ""3.14159""
    },
    ""booleanTrue"": {
      ""BOOL"": true
    },
    ""booleanFalse"": {
      ""BOOL"": false
    },
    ""nullField"": {
      ""NULL"": true
    },
    ""mixedList"": {
      ""L"": [
        {
          ""S"": ""string""
        },
        {
          ""N"": ""123""
        },
        {
          ""BOOL"": true
        },
        {
          ""M"": {
            ""nested"": {
              ""S"": ""object""
            }
          }
        }
      ]
    },
    ""simpleMap"": {
      ""M"": {
        ""key1"": {
          ""S"": ""value1""
        },
        ""key2"": {
          ""S"": ""value2""
        },
        ""key3"": {
          ""N"": ""999""
        }
      }
    },
    ""nestedMap"": {
      ""M"": {
        ""level1"": {
          ""M"": {
            ""level2"": {
              ""M"": {
                ""level3"": {
                  ""M"": {
                    ""deepValue"": {
                      ""S"": ""found it!""
                    }
                  }
                }
              }
            }
          }
        }
      }
    },
    ""complexObject"": {
      ""M"": {
        ""name"": {
          ""S"": ""Complex Item""
        },
        ""count"": {
          ""N"": ""100""
        },
        ""active"": {
          ""BOOL"": true
        },
        ""metadata"": {
          ""M"": {
            ""created"": {
              ""S"": ""2024-01-01T00:00:00Z""
            },
            ""updated"": {
              ""S"": ""2024-10-22T00:00:00Z""
            }
          }
        },
        ""items"": {
          ""L"": [
            {
              ""M"": {
                ""id"": {
                  ""N"": ""1""
                },
                ""label"": {
                  ""S"": ""First""
                }
              }
            },
            {
              ""M"": {
                ""id"": {
                  ""N"": ""2""
                },
                ""label"": {
                  ""S"": ""Second""
                }
              }
            }
          ]
        }
      }
    }
  }
}
").
Definition from_all_types_compact : bytes := (bs "{""Item"":{""id"":{""S"":""demo-001""},""stringField"":{""S"":""Hello, World!""},""numberField"":{""N"":""42""},""decimalField"":{""N"":""3.14159""},""booleanTrue"":{""BOOL"":true},""booleanFalse"":{""BOOL"":false},""nullField"":{""NULL"":true},""mixedList"":{""L"":[{""S"":""string""},{""N"":""123""},{""BOOL"":true},{""M"":{""nested"":{""S"":""object""}}}]},""simpleMap"":{""M"":{""key1"":{""S"":""value1""},""key2"":{""S"":""value2""},""key3"":{""N"":""999""}}},""nestedMap"":{""M"":{""level1"":{""M"":{""level2"":{""M"":{""level3"":{""M"":{""deepValue"":{""S"":""found it!""}}}}}}}}},""complexObject"":{""M"":{""name"":{""S"":""Complex Item""},""count"":{""N"":""100""},""active"":{""BOOL"":true},""metadata"":{""M"":{""created"":{""S"":""2024-01-01T00:00:00Z""},""updated"":{""S"":""2024-10-22T00:00:00Z""}}},""items"":{""L"":[{""M"":{""id"":{""N"":""1""},""label"":{""S"":""First""}}},{""M"":{""id"":{""N"":""2""},""label"":{""S"":""Second""}}}]}}}}}
").
Example from_all_types_there_and_back : next ToDdb (converted FromDdb from_all_types) = Some from_all_types_compact.
Proof. vm_compute. reflexivity. Qed.

(** benchmarks/dynamodb/roundtrip_from_ddb/original-ddb/book-dynamodb.json *)
Definition from_book : bytes := (bs "{
  ""Item"": {
    ""Id"": {
      ""N"": ""103""
    },
    ""Title"": {
      ""S"": ""Book 103 Title""
    },
    ""ISBN"": {
      ""S"": ""333-3333333333""
    },
    ""Authors"": {
      ""L"": [
        {
          ""S"": ""Author1""
        },
        {
          ""S"": ""Author2""
        }
      ]
    },
    ""Publisher"": {
      ""M"": {
        ""Name"": {
          ""S"": ""Tech Publishing House""
        },
        ""City"": {
          ""S"": ""New York""
        },
        ""Founded"": {
          ""N"": ""1995""
        }
      }
    },
    ""Price"": {
      ""N"": ""2000""
    },
    ""PageCount"": {
      ""N"": ""600""
    },
    ""Dimensions"": {
      ""S"": ""8.5 x 11.0 x 1.5""
    },
    ""InPublication"": {
      ""BOOL"": false
    },
    ""ProductCategory"": {
      ""S"": ""Book""
    },
    ""Tags"": {
      ""L"": [
        {
          ""S"": ""programming""
        },
        {
          ""S"": ""technology""
        },
        {
          ""S"": ""reference""
        }
      ]
    },
    ""Ratings"": {
      ""L"": [
        {
          ""N"": ""4.5""
        },
        {
          ""N"": ""4.8""
        },
        {
          ""N"": ""5.0""
        },
        {
          ""N"": ""4.2""
        }
      ]
    },
    ""Reviews"": {
      ""L"": [
        {
          ""S"": ""Excellent reference material""
        },
        {
          ""S"": ""Very comprehensive""
        },
        {
          ""S"": ""Great for beginners""
        }
      ]
    },
    ""Metadata"": {
      ""M"": {
        ""CreatedAt"": {
          ""S"": ""2023-01-15T10:30:00Z""
        },
        ""UpdatedAt"": {
          ""S"": ""2024-06-20T14:45:00Z""
        },
        ""Version"": {
          ""N"": ""2""
        }
      }
    },
    ""Available"": {
      ""BOOL"": true
    },
    ""Description"": {
      ""NULL"": true
    },
    ""CoverImage"": {
      ""S"": ""aVZCT1J3MEtHZ29BQUFBTlNVaEVVZ0FBQUFV""
    }
  }
}
").
Definition from_book_compact : bytes := (bs "{""Item"":{""Id"":{""N"":""103""},""Title"":{""S"":""Book 103 Title""},""ISBN"":{""S"":""333-3333333333""},""Authors"":{""L"":[{""S"":""Author1""},{""S"":""Author2""}]},""Publisher"":{""M"":{""Name"":{""S"":""Tech Publishing House""},""City"":{""S"":""New York""},""Founded"":{""N"":""1995""}}},""Price"":{""N"":""2000""},""PageCount"":{""N"":""600""},""Dimensions"":{""S"":""8.5 x 11.0 x 1.5""},""InPublication"":{""BOOL"":false},""ProductCategory"":{""S"":""Book""},""Tags"":{""L"":[{""S"":""programming""},{""S"":""technology""},{""S"":""reference""}]},""Ratings"":{""L"":[{""N"":""4.5""},{""N"":""4.8""},{""N"":""5.0""},{""N"":""4.2""}]},""Reviews"":{""L"":[{""S"":""Excellent reference material""},{""S"":""Very comprehensive""},{""S"":""Great for beginners""}]},""Metadata"":{""M"":{""CreatedAt"":{""S"":""2023-01-15T10:30:00Z""},""UpdatedAt"":{""S"":""2024-06-20T14:45:00Z""},""Version"":{""N"":""2""}}},""Available"":{""BOOL"":true},""Description"":{""NULL"":true},""CoverImage"":{""S"":""aVZCT1J3MEtHZ29BQUFBTlNVaEVVZ0FBQUFV""}}}
").
Example from_book_there_and_back : next ToDdb (converted FromDdb from_book) = Some from_book_compact.
Proof. vm_compute. reflexivity. Qed.

(** benchmarks/dynamodb/roundtrip_from_ddb/original-ddb/products-dynamodb.json *)
Definition from_products : bytes := (bs "{""Item"":{""productId"":{""S"":""prod-001""},""name"":{""S"":""Wireless Mouse""},""category"":{""S"":""Electronics""},""price"":{""N"":""29.99""},""inStock"":{""BOOL"":true},""quantity"":{""N"":""150""},""specs"":{""M"":{""color"":{""S"":""Black""},""connectivity"":{""S"":""Bluetooth""},""battery"":{""S"":""AAA""},""warranty"":{""N"":""1""}}},""images"":{""L"":[{""S"":""aW1hZ2UxLnBuZw==""},{""S"":""aW1hZ2UyLnBuZw==""}]},""tags"":{""L"":[{""S"":""wireless""},{""S"":""bluetooth""},{""S"":""ergonomic""}]},""ratings"":{""L"":[{""N"":""4.5""},{""N"":""5.0""},{""N"":""4.0""},{""N"":""4.8""}]},""reviews"":{""NULL"":true}}}
{""Item"":{""productId"":{""S"":""prod-002""},""name"":{""S"":""USB-C Cable""},""category"":{""S"":""Accessories""},""price"":{""N"":""12.99""},""inStock"":{""BOOL"":true},""quantity"":{""N"":""500""},""specs"":{""M"":{""length"":{""S"":""6 feet""},""color"":{""S"":""White""},""dataSpeed"":{""S"":""10 Gbps""},""warranty"":{""N"":""2""}}},""images"":{""L"":[{""S"":""Y2FibGUxLmpwZw==""}]},""tags"":{""L"":[{""S"":""cable""},{""S"":""usb-c""},{""S"":""fast-charging""}]},""ratings"":{""L"":[{""N"":""5.0""},{""N"":""5.0""},{""N"":""4.9""}]},""reviews"":{""L"":[{""S"":""Excellent quality""},{""S"":""Fast charging works great""}]}}}
").
Definition from_products_compact : bytes := (bs "{""Item"":{""productId"":{""S"":""prod-001""},""name"":{""S"":""Wireless Mouse""},""category"":{""S"":""Electronics""},""price"":{""N"":""29.99""},""inStock"":{""BOOL"":true},""quantity"":{""N"":""150""},""specs"":{""M"":{""color"":{""S"":""Black""},""connectivity"":{""S"":""Bluetooth""},""battery"":{""S"":""AAA""},""warranty"":{""N"":""1""}}},""images"":{""L"":[{""S"":""aW1hZ2UxLnBuZw==""},{""S"":""aW1hZ2UyLnBuZw==""}]},""tags"":{""L"":[{""S"":""wireless""},{""S"":""bluetooth""},{""S"":""ergonomic""}]},""ratings"":{""L"":[{""N"":""4.5""},{""N"":""5.0""},{""N"":""4.0""},{""N"":""4.8""}]},""reviews"":{""NULL"":true}}}
{""Item"":{""productId"":{""S"":""prod-002""},""name"":{""S"":""USB-C Cable""},""category"":{""S"":""Accessories""},""price"":{""N"":""12.99""},""inStock"":{""BOOL"":true},""quantity"":{""N"":""500""},""specs"":{""M"":{""length"":{""S"":""6 feet""},""color"":{""S"":""White""},""dataSpeed"":{""S"":""10 Gbps""},""warranty"":{""N"":""2""}}},""images"":{""L"":[{""S"":""Y2FibGUxLmpwZw==""}]},""tags"":{""L"":[{""S"":""cable""},{""S"":""usb-c""},{""S"":""fast-charging""}]},""ratings"":{""L"":[{""N"":""5.0""},{""N"":""5.0""},{""N"":""4.9""}]},""reviews"":{""L"":[{""S"":""Excellent quality""},{""S"":""Fast charging works great""}]}}}
").
Example from_products_there_and_back : next ToDdb (converted FromDdb from_products) = Some from_products_compact.
Proof. vm_compute. reflexivity. Qed.

(** benchmarks/dynamodb/roundtrip_from_ddb/original-ddb/users-dynamodb.json *)
Definition from_users : bytes := (bs "{""Item"":{""userId"":{""S"":""user-001""},""username"":{""S"":""alice_smith""},""email"":{""S"":""alice@example.com""},""age"":{""N"":""28""},""isActive"":{""BOOL"":true},""roles"":{""L"":[{""S"":""admin""},{""S"":""editor""}]},""favoriteNumbers"":{""L"":[{""N"":""7""},{""N"":""42""},{""N"":""100""}]},""profile"":{""M"":{""firstName"":{""S"":""Alice""},""lastName"":{""S"":""Smith""},""bio"":{""S"":""Software engineer and tech enthusiast""},""location"":{""M"":{""city"":{""S"":""San Francisco""},""state"":{""S"":""CA""},""zipCode"":{""S"":""94102""}}}}},""preferences"":{""M"":{""theme"":{""S"":""dark""},""notifications"":{""BOOL"":true},""language"":{""S"":""en-US""}}},""createdAt"":{""S"":""2023-06-15T08:30:00Z""},""lastLogin"":{""S"":""2024-10-20T14:22:33Z""},""tags"":{""L"":[{""S"":""premium""},{""S"":""verified""},{""S"":""early-adopter""}]},""score"":{""N"":""95.7""}}}
{""Item"":{""userId"":{""S"":""user-002""},""username"":{""S"":""bob_jones""},""email"":{""S"":""bob@example.com""},""age"":{""N"":""35""},""isActive"":{""BOOL"":false},""roles"":{""L"":[{""S"":""user""}]},""favoriteNumbers"":{""L"":[{""N"":""13""},{""N"":""21""}]},""profile"":{""M"":{""firstName"":{""S"":""Bob""},""lastName"":{""S"":""Jones""},""bio"":{""NULL"":true},""location"":{""M"":{""city"":{""S"":""Austin""},""state"":{""S"":""TX""},""zipCode"":{""S"":""78701""}}}}},""preferences"":{""M"":{""theme"":{""S"":""light""},""notifications"":{""BOOL"":false},""language"":{""S"":""en-US""}}},""createdAt"":{""S"":""2024-01-10T12:00:00Z""},""lastLogin"":{""S"":""2024-10-15T09:45:12Z""},""tags"":{""L"":[{""S"":""new-user""}]},""score"":{""N"":""78.3""}}}
").
Definition from_users_compact : bytes := (bs "{""Item"":{""userId"":{""S"":""user-001""},""username"":{""S"":""alice_smith""},""email"":{""S"":""alice@example.com""},""age"":{""N"":""28""},""isActive"":{""BOOL"":true},""roles"":{""L"":[{""S"":""admin""},{""S"":""editor""}]},""favoriteNumbers"":{""L"":[{""N"":""7""},{""N"":""42""},{""N"":""100""}]},""profile"":{""M"":{""firstName"":{""S"":""Alice""},""lastName"":{""S"":""Smith""},""bio"":{""S"":""Software engineer and tech enthusiast""},""location"":{""M"":{""city"":{""S"":""San Francisco""},""state"":{""S"":""CA""},""zipCode"":{""S"":""94102""}}}}},""preferences"":{""M"":{""theme"":{""S"":""dark""},""notifications"":{""BOOL"":true},""language"":{""S"":""en-US""}}},""createdAt"":{""S"":""2023-06-15T08:30:00Z""},""lastLogin"":{""S"":""2024-10-20T14:22:33Z""},""tags"":{""L"":[{""S"":""premium""},{""S"":""verified""},{""S"":""early-adopter""}]},""score"":{""N"":""95.7""}}}
{""Item"":{""userId"":{""S"":""user-002""},""username"":{""S"":""bob_jones""},""email"":{""S"":""bob@example.com""},""age"":{""N"":""35""},""isActive"":{""BOOL"":false},""roles"":{""L"":[{""S"":""user""}]},""favoriteNumbers"":{""L"":[{""N"":""13""},{""N"":""21""}]},""profile"":{""M"":{""firstName"":{""S"":""Bob""},""lastName"":{""S"":""Jones""},""bio"":{""NULL"":true},""location"":{""M"":{""city"":{""S"":""Austin""},""state"":{""S"":""TX""},""zipCode"":{""S"":""78701""}}}}},""preferences"":{""M"":{""theme"":{""S"":""light""},""notifications"":{""BOOL"":false},""language"":{""S"":""en-US""}}},""createdAt"":{""S"":""2024-01-10T12:00:00Z""},""lastLogin"":{""S"":""2024-10-15T09:45:12Z""},""tags"":{""L"":[{""S"":""new-user""}]},""score"":{""N"":""78.3""}}}
").
Example from_users_there_and_back : next ToDdb (converted FromDdb from_users) = Some from_users_compact.
Proof. vm_compute. reflexivity. Qed.

(** examples/dynamodb/fixture/all-types-dynamodb.json becomes all-types-normal.json. *)
Definition fixture_all_types : bytes := (bs "{
  ""Item"": {
    ""id"": {
      ""S"": ""demo-001""
    },
    ""stringField"": {
      ""S"": ""Hello, World!""
    },
    ""numberField"": {
      ""N"": ""42""
    },
    ""decimalField"": {
      ""N"": ""3.14159""
    },
    ""booleanTrue"": {
      ""BOOL"": true
    },
    ""booleanFalse"": {
      ""BOOL"": false
    },
    ""nullField"": {
      ""NULL"": true
    },
    ""stringArray"": {
      ""SS"": [
        ""apple"",
        ""banana"",
        ""cherry""
      ]
    },
    ""numberArray"": {
      ""NS"": [
        ""1"",
        ""2"",
        ""3"",
        ""5"",
        ""8"",
        ""13""
      ]
    },
    ""mixedList"": {
      ""L"": [
        {
          ""S"": ""string""
        },
        {
          ""N"": ""123""
        },
        {
          ""BOOL"": true
        },
        {
          ""M"": {
            ""nested"": {
              ""S"": ""object""
            }
          }
        }
      ]
    },
    ""simpleMap"": {
      ""M"": {
        ""key1"": {
          ""S"": ""value1""
        },
        ""key2"": {
          ""S"": ""value2""
        },
        ""key3"": {
          ""N"": ""999""
        }
      }
    },
    ""nestedMap"": {
      ""M"": {
        ""level1"": {
          ""M"": {
            ""level2"": {
              ""M"": {
                ""level3"": {
                  ""M"": {
                    ""deepValue"": {
                      ""S"": ""found it!""
                    }
                  }
                }
              }
            }
          }
        }
      }
    },
    ""binaryData"": {
      ""B"": ""VGhpcyBpcyBiYXNlNjQgZW5jb2RlZCBkYXRh""
    },
    ""binarySet"": {
      ""BS"": [
        ""Zmlyc3Q="",
        ""c2Vjb25k"",
        ""dGhpcmQ=""
      ]
    },
    ""complexObject"": {
      ""M"": {
        ""name"": {
          ""S"": ""Complex Item""
        },
        ""count"": {
          ""N"": ""100""
        },
        ""active"": {
          ""BOOL"": true
        },
        ""metadata"": {
          ""M"": {
            ""created"": {
              ""S"": ""2024-01-01T00:00:00Z""
            },
            ""updated"": {
              ""S"": ""2024-10-22T00:00:00Z""
            }
          }
        },
        ""items"": {
          ""L"": [
            {
              ""M"": {
                ""id"": {
                  ""N"": ""1""
                },
                ""label"": {
                  ""S"": ""First""
                }
              }
            },
            {
              ""M"": {
                ""id"": {
                  ""N"": ""2""
                },
                ""label"": {
                  ""S"": ""Second""
                }
              }
            }
          ]
        }
      }
    }
  }
}
").
Definition fixture_all_types_normal : bytes := (bs "{""id"":""demo-001"",""stringField"":""Hello, World!"",""numberField"":42,""decimalField"":3.14159,""booleanTrue"":true,""booleanFalse"":false,""nullField"":null,""stringArray"":[""apple"",""banana"",""cherry""],""numberArray"":[1,2,3,5,8,13],""mixedList"":[""string"",123,true,{""nested"":""object""}],""simpleMap"":{""key1"":""value1"",""key2"":""value2"",""key3"":999},""nestedMap"":{""level1"":{""level2"":{""level3"":{""deepValue"":""found it!""}}}},""binaryData"":""VGhpcyBpcyBiYXNlNjQgZW5jb2RlZCBkYXRh"",""binarySet"":[""Zmlyc3Q="",""c2Vjb25k"",""dGhpcmQ=""],""complexObject"":{""name"":""Complex Item"",""count"":100,""active"":true,""metadata"":{""created"":""2024-01-01T00:00:00Z"",""updated"":""2024-10-22T00:00:00Z""},""items"":[{""id"":1,""label"":""First""},{""id"":2,""label"":""Second""}]}}
").
Example fixture_all_types_converted : converted FromDdb fixture_all_types = Some fixture_all_types_normal.
Proof. vm_compute. reflexivity. Qed.

(** examples/dynamodb/fixture/book-dynamodb.json becomes book-normal.json. *)
Definition fixture_book : bytes := (bs "{
  ""Item"": {
    ""Id"": {
      ""N"": ""103""
    },
    ""Title"": {
      ""S"": ""Book 103 Title""
    },
    ""ISBN"": {
      ""S"": ""333-3333333333""
    },
    ""Authors"": {
      ""SS"": [
        ""Author1"",
        ""Author2""
      ]
    },
    ""Publisher"": {
      ""M"": {
        ""Name"": {
          ""S"": ""Tech Publishing House""
        },
        ""City"": {
          ""S"": ""New York""
        },
        ""Founded"": {
          ""N"": ""1995""
        }
      }
    },
    ""Price"": {
      ""N"": ""2000""
    },
    ""PageCount"": {
      ""N"": ""600""
    },
    ""Dimensions"": {
      ""S"": ""8.5 x 11.0 x 1.5""
    },
    ""InPublication"": {
      ""BOOL"": false
    },
    ""ProductCategory"": {
      ""S"": ""Book""
    },
    ""Tags"": {
      ""SS"": [
        ""programming"",
        ""technology"",
        ""reference""
      ]
    },
    ""Ratings"": {
      ""NS"": [
        ""4.5"",
        ""4.8"",
        ""5.0"",
        ""4.2""
      ]
    },
    ""Reviews"": {
      ""L"": [
        {
          ""S"": ""Excellent reference material""
        },
        {
          ""S"": ""Very comprehensive""
        },
        {
          ""S"": ""Great for beginners""
        }
      ]
    },
    ""Metadata"": {
      ""M"": {
        ""CreatedAt"": {
          ""S"": ""2023-01-15T10:30:00Z""
        },
        ""UpdatedAt"": {
          ""S"": ""2024-06-20T14:45:00Z""
        },
        ""Version"": {
          ""N"": ""2""
        }
      }
    },
    ""Available"": {
      ""BOOL"": true
    },
    ""Description"": {
      ""NULL"": true
    },
    ""CoverImage"": {
      ""B"": ""aVZCT1J3MEtHZ29BQUFBTlNVaEVVZ0FBQUFV""
    }
  }
}
").
Definition fixture_book_normal : bytes := (bs "{""Id"":103,""Title"":""Book 103 Title"",""ISBN"":""333-3333333333"",""Authors"":[""Author1"",""Author2""],""Publisher"":{""Name"":""Tech Publishing House"",""City"":""New York"",""Founded"":1995},""Price"":2000,""PageCount"":600,""Dimensions"":""8.5 x 11.0 x 1.5"",""InPublication"":false,""ProductCategory"":""Book"",""Tags"":[""programming"",""technology"",""reference""],""Ratings"":[4.5,4.8,5.0,4.2],""Reviews"":[""Excellent reference material"",""Very comprehensive"",""Great for beginners""],""Metadata"":{""CreatedAt"":""2023-01-15T10:30:00Z"",""UpdatedAt"":""2024-06-20T14:45:00Z"",""Version"":2},""Available"":true,""Description"":null,""CoverImage"":""aVZCT1J3MEtHZ29BQUFBTlNVaEVVZ0FBQUFV""}
").
Example fixture_book_converted : converted FromDdb fixture_book = Some fixture_book_normal.
Proof. vm_compute. reflexivity. Qed.

(** examples/dynamodb/fixture/products-dynamodb.jsonl becomes products-normal.json, whose elements are the items. *)
Definition fixture_products : bytes := (bs "{""Item"":{""productId"":{""S"":""prod-001""},""name"":{""S"":""Wireless Mouse""},""category"":{""S"":""Electronics""},""price"":{""N"":""29.99""},""inStock"":{""BOOL"":true},""quantity"":{""N"":""150""},""specs"":{""M"":{""color"":{""S"":""Black""},""connectivity"":{""S"":""Bluetooth""},""battery"":{""S"":""AAA""},""warranty"":{""N"":""1""}}},""images"":{""BS"":[""aW1hZ2UxLnBuZw=="",""aW1hZ2UyLnBuZw==""]},""tags"":{""SS"":[""wireless"",""bluetooth"",""ergonomic""]},""ratings"":{""NS"":[""4.5"",""5.0"",""4.0"",""4.8""]},""reviews"":{""NULL"":true}}}
{""Item"":{""productId"":{""S"":""prod-002""},""name"":{""S"":""USB-C Cable""},""category"":{""S"":""Accessories""},""price"":{""N"":""12.99""},""inStock"":{""BOOL"":true},""quantity"":{""N"":""500""},""specs"":{""M"":{""length"":{""S"":""6 feet""},""color"":{""S"":""White""},""dataSpeed"":{""S"":""10 Gbps""},""warranty"":{""N"":""2""}}},""images"":{""BS"":[""Y2FibGUxLmpwZw==""]},""tags"":{""SS"":[""cable"",""usb-c"",""fast-charging""]},""ratings"":{""NS"":[""5.0"",""5.0"",""4.9""]},""reviews"":{""L"":[{""S"":""Excellent quality""},{""S"":""Fast charging works great""}]}}}
").
Definition fixture_products_normal : bytes := (bs "{""productId"":""prod-001"",""name"":""Wireless Mouse"",""category"":""Electronics"",""price"":29.99,""inStock"":true,""quantity"":150,""specs"":{""color"":""Black"",""connectivity"":""Bluetooth"",""battery"":""AAA"",""warranty"":1},""images"":[""aW1hZ2UxLnBuZw=="",""aW1hZ2UyLnBuZw==""],""tags"":[""wireless"",""bluetooth"",""ergonomic""],""ratings"":[4.5,5.0,4.0,4.8],""reviews"":null}
{""productId"":""prod-002"",""name"":""USB-C Cable"",""category"":""Accessories"",""price"":12.99,""inStock"":true,""quantity"":500,""specs"":{""length"":""6 feet"",""color"":""White"",""dataSpeed"":""10 Gbps"",""warranty"":2},""images"":[""Y2FibGUxLmpwZw==""],""tags"":[""cable"",""usb-c"",""fast-charging""],""ratings"":[5.0,5.0,4.9],""reviews"":[""Excellent quality"",""Fast charging works great""]}
").
Example fixture_products_converted : converted FromDdb fixture_products = Some fixture_products_normal.
Proof. vm_compute. reflexivity. Qed.

(** examples/dynamodb/fixture/users-dynamodb.jsonl becomes users-normal.json, whose elements are the items. *)
Definition fixture_users : bytes := (bs "{""Item"":{""userId"":{""S"":""user-001""},""username"":{""S"":""alice_smith""},""email"":{""S"":""alice@example.com""},""age"":{""N"":""28""},""isActive"":{""BOOL"":true},""roles"":{""SS"":[""admin"",""editor""]},""favoriteNumbers"":{""NS"":[""7"",""42"",""100""]},""profile"":{""M"":{""firstName"":{""S"":""Alice""},""lastName"":{""S"":""Smith""},""bio"":{""S"":""Software engineer and tech enthusiast""},""location"":{""M"":{""city"":{""S"":""San Francisco""},""state"":{""S"":""CA""},""zipCode"":{""S"":""94102""}}}}},""preferences"":{""M"":{""theme"":{""S"":""dark""},""notifications"":{""BOOL"":true},""language"":{""S"":""en-US""}}},""createdAt"":{""S"":""2023-06-15T08:30:00Z""},""lastLogin"":{""S"":""2024-10-20T14:22:33Z""},""tags"":{""SS"":[""premium"",""verified"",""early-adopter""]},""score"":{""N"":""95.7""}}}
{""Item"":{""userId"":{""S"":""user-002""},""username"":{""S"":""bob_jones""},""email"":{""S"":""bob@example.com""},""age"":{""N"":""35""},""isActive"":{""BOOL"":false},""roles"":{""SS"":[""user""]},""favoriteNumbers"":{""NS"":[""13"",""21""]},""profile"":{""M"":{""firstName"":{""S"":""Bob""},""lastName"":{""S"":""Jones""},""bio"":{""NULL"":true},""location"":{""M"":{""city"":{""S"":""Austin""},""state"":{""S"":""TX""},""zipCode"":{""S"":""78701""}}}}},""preferences"":{""M"":{""theme"":{""S"":""light""},""notifications"":{""BOOL"":false},""language"":{""S"":""en-US""}}},""createdAt"":{""S"":""2024-01-10T12:00:00Z""},""lastLogin"":{""S"":""2024-10-15T09:45:12Z""},""tags"":{""SS"":[""new-user""]},""score"":{""N"":""78.3""}}}
").
Definition fixture_users_normal : bytes := (bs "{""userId"":""user-001"",""username"":""alice_smith"",""email"":""alice@example.com"",""age"":28,""isActive"":true,""roles"":[""admin"",""editor""],""favoriteNumbers"":[7,42,100],""profile"":{""firstName"":""Alice"",""lastName"":""Smith"",""bio"":""Software engineer and tech enthusiast"",""location"":{""city"":""San Francisco"",""state"":""CA"",""zipCode"":""94102""}},""preferences"":{""theme"":""dark"",""notifications"":true,""language"":""en-US""},""createdAt"":""2023-06-15T08:30:00Z"",""lastLogin"":""2024-10-20T14:22:33Z"",""tags"":[""premium"",""verified"",""early-adopter""],""score"":95.7}
{""userId"":""user-002"",""username"":""bob_jones"",""email"":""bob@example.com"",""age"":35,""isActive"":false,""roles"":[""user""],""favoriteNumbers"":[13,21],""profile"":{""firstName"":""Bob"",""lastName"":""Jones"",""bio"":null,""location"":{""city"":""Austin"",""state"":""TX"",""zipCode"":""78701""}},""preferences"":{""theme"":""light"",""notifications"":false,""language"":""en-US""},""createdAt"":""2024-01-10T12:00:00Z"",""lastLogin"":""2024-10-15T09:45:12Z"",""tags"":[""new-user""],""score"":78.3}
").
Example fixture_users_converted : converted FromDdb fixture_users = Some fixture_users_normal.
Proof. vm_compute. reflexivity. Qed.
