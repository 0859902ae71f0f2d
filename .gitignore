*.cache
*.vo
*.vok
*.vos
*.glob
*.aux
Makefile*
.Makefile*
