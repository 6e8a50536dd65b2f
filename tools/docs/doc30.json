{"openapi":"3.0.3","info":{"title":"Pets","description":"All pets","version":"1.0","contact":{"name":"n","email":"a@b"},"license":{"name":"MIT"},"x-info":[1,2]},
"servers":[{"url":"https://{h}","variables":{"h":{"default":"a","enum":["a","b"]}}}],
"security":[{"key":[]}],"tags":[{"name":"pets","externalDocs":{"url":"u"}}],
"paths":{"/pets/{id}":{"summary":"s","parameters":[{"$ref":"#/components/parameters/P"}],
 "get":{"tags":["pets"],"operationId":"getPet","parameters":[
   {"name":"id","in":"path","required":true,"schema":{"type":"integer","minimum":1,"exclusiveMinimum":true},"style":"label"},
   {"name":"q","in":"query","style":"form","explode":true,"content":{"application/json":{"schema":{"$ref":"#/components/schemas/Pet"}}}},
   {"name":"X-H","in":"header","schema":{"type":"string","enum":["a",null,3]},"example":null}],
  "responses":{"200":{"description":"ok","headers":{"X-Rate":{"schema":{"type":"integer"}},"X-Ref":{"$ref":"#/components/headers/H"}},
      "content":{"application/json":{"schema":{"$ref":"#/components/schemas/Pet"},"example":{"name":"rex","x":[1,{"y":null}]}}},
      "links":{"next":{"operationId":"getPet","parameters":{"id":"$response.body"}}}},
   "4XX":{"$ref":"#/components/responses/E"},"default":{"description":"other"},"x-r":1},
  "callbacks":{"cb":{"{$request.body#/url}":{"post":{"responses":{"204":{"description":"none"}}}},"x-cb":true},"cr":{"$ref":"#/components/callbacks/C"}},
  "deprecated":true,"security":[{}],"x-op":{"a":1}},
 "post":{"requestBody":{"content":{"multipart/form-data":{"schema":{"type":"object","properties":{"f":{"type":"string","format":"binary"}}},
     "encoding":{"f":{"contentType":"image/png","style":"form"}}}},"required":true},"responses":{"201":{"description":"made"}}}},
 "x-paths":"y"},
"components":{"schemas":{"Pet":{"title":"Pet","type":"object","required":["name"],"properties":{"name":{"type":"string","maxLength":10},"tag":{"nullable":true,"allOf":[{"$ref":"#/components/schemas/Tag"}]}},
    "additionalProperties":false,"discriminator":{"propertyName":"kind","mapping":{"cat":"Cat"}},"xml":{"name":"pet","wrapped":true}},
   "Tag":{"oneOf":[{"type":"string"},{"type":"integer"}],"not":{"type":"boolean"},"additionalProperties":{"type":"string"},"default":{"k":[]},"multipleOf":0.5}},
 "responses":{"E":{"description":"error"}},
 "parameters":{"P":{"name":"c","in":"cookie","schema":{"type":"string"},"style":"form"}},
 "examples":{"ex":{"summary":"s","value":[1,"a"]},"er":{"$ref":"#/components/examples/ex"}},
 "requestBodies":{"B":{"content":{"text/plain":{}}}},
 "headers":{"H":{"description":"h","schema":{"type":"string"}}},
 "securitySchemes":{"key":{"type":"apiKey","name":"k","in":"header"},"basic":{"type":"http","scheme":"basic"},"jwt":{"type":"http","scheme":"bearer","bearerFormat":"JWT"},
   "o":{"type":"oauth2","flows":{"implicit":{"authorizationUrl":"a","scopes":{"r":"read"}},"authorizationCode":{"authorizationUrl":"a","tokenUrl":"t"}}},
   "oid":{"type":"openIdConnect","openIdConnectUrl":"u"},"ref":{"$ref":"#/components/securitySchemes/key"}},
 "links":{"L":{"operationRef":"r","server":{"url":"s"}}},
 "callbacks":{"C":{"http://x":{"put":{"responses":{"2XX":{"description":"d"}}}}}},"x-c":null},
"x-spec":{"deep":[{"a":1.25}]}}
